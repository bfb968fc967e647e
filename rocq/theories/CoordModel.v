(** Model of the single-boundary coordinate conversions of ocbpy/_boundary.py:
    [OCBoundary.normal_coord] (536-636), [OCBoundary.revert_coord] (638-740),
    [OCBoundary.get_aacgm_boundary_lat] (742-849), the latitude part of
    [OCBoundary.__init__] (155-183) and the x/y part of [OCBoundary.load]
    (402-418).  EABoundary inherits all of them.

    Floats are reals or NaN ([fl], see RangeModel.v).  Array functions act
    elementwise; fix_range on arrays was shown elementwise in C15.  Arrays have
    rank 0 or 1.  Division by zero (a vanishing boundary radius) is NaN here,
    where numpy produces infinities; signed zeros are not modelled. *)
From Coq Require Import Reals ZArith List Bool.
From Verif Require Import PyBase RangeModel.
Import ListNotations.
Open Scope R_scope.

(** [np.arctan2(y, x)], signed zeros aside. *)
Definition atan2 (y x : R) : R :=
  if Rlt_dec 0 x then atan (y / x)
  else if Rlt_dec x 0 then (if Rle_dec 0 y then atan (y / x) + PI else atan (y / x) - PI)
  else if Rlt_dec 0 y then PI / 2
  else if Rlt_dec y 0 then - (PI / 2)
  else 0.

(** [np.degrees], [np.radians], [np.sign]. *)
Definition degrees (x : R) : R := x * 180 / PI.
Definition radians (x : R) : R := x * PI / 180.
Definition sgn (x : R) : Z := if Rlt_dec 0 x then 1%Z else if Rlt_dec x 0 then (-1)%Z else 0%Z.

(** One boundary record: radius, radial distance and angle (degrees) of the
    centre, and the radius correction with its keyword arguments applied
    ([rfunc[i](mlt, **rfunc_kwargs[i])]).  Simplification: the correction is
    taken to act on each MLT separately. *)
Record rec := mkRec { rr : R; rcent : R; phic : R; rfun : fl -> fl }.

(** The attributes of an OCBoundary that the conversions use. *)
Record bnd := mkBnd { hemi : Z; blat : R; recs : list rec; rind : Z }.

(** [np.sign(lat) != self.hemisphere]; NaN and 0 are on the wrong side. *)
Definition wrong_side (h : Z) (v : fl) : bool :=
  match v with None => true | Some x => negb (sgn x =? h)%Z end.

Definition fdiv (a : R) (b : fl) : fl :=
  match b with None => None | Some y => if Req_EM_T y 0 then None else Some (a / y) end.

(** _boundary.py:613-615 and 692-694. *)
Definition centre_x (rc : rec) : R := rcent rc * cos (radians (phic rc)).
Definition centre_y (rc : rec) : R := rcent rc * sin (radians (phic rc)).

(** [ocb_time.fix_range(ocb_time.deg2hr(np.degrees(np.arctan2(y, x))), 0.0, 24.0)],
    _boundary.py:633-634 and 716-717. *)
Definition to_mlt (y x : fl) : res fl :=
  m <- deg2hr (fmap degrees (fmap2 atan2 y x)) ;; fix_range m 0 24 None.

(** _boundary.py:612-634 for one position (latitude already checked). *)
Definition normal_pt (h : Z) (bl : R) (rc : rec) (lat mlt : fl) : res (fl * fl) :=
  let scalep := fmap (fun l => 90 - IZR h * l) lat in
  th <- hr2rad mlt (2 * PI) ;;
  let xp := fmap2 (fun s t => s * cos t) scalep th in
  let yp := fmap2 (fun s t => s * sin t) scalep th in
  let scalen := fdiv (90 - Rabs bl) (fmap (fun c => rr rc + c) (rfun rc mlt)) in
  let xn := fmap2 Rmult (fmap (fun x => x - centre_x rc) xp) scalen in
  let yn := fmap2 Rmult (fmap (fun y => y - centre_y rc) yp) scalen in
  let olat := fmap2 (fun x y => IZR h * (90 - sqrt (x ^ 2 + y ^ 2))) xn yn in
  omlt <- to_mlt yn xn ;;
  Ok (olat, omlt).

(** _boundary.py:691-717 for one position.  [thetan] is not wrapped. *)
Definition revert_pt (h : Z) (bl : R) (rc : rec) (olat omlt rcorr : fl) : res (fl * fl) :=
  let rn := fmap (fun l => 90 - IZR h * l) olat in
  let thetan := fmap (fun m => m * PI / 12) omlt in
  let xn := fmap2 (fun r t => r * cos t) rn thetan in
  let yn := fmap2 (fun r t => r * sin t) rn thetan in
  let d := 90 - IZR h * bl in
  let scale := match fmap (fun c => rr rc + c) rcorr with
               | Some s => if Req_EM_T d 0 then None else Some (s / d)
               | None => None end in
  let xp := fmap (fun x => x + centre_x rc) (fmap2 Rmult xn scale) in
  let yp := fmap (fun y => y + centre_y rc) (fmap2 Rmult yn scale) in
  let alat := fmap2 (fun x y => IZR h * (90 - sqrt (x ^ 2 + y ^ 2))) xp yp in
  amlt <- to_mlt yp xp ;;
  Ok (alat, amlt).

(** ** Arrays *)

(** An argument or result: rank 0 or 1, integer dtype or not, and for an
    argument whether it is an ndarray (then [np.asarray] does not copy it). *)
Record arr := mkArr { is0d : bool; isint : bool; isnd : bool; el : list fl }.
Definition out (z : bool) (l : list fl) : arr := mkArr z false true l.

Fixpoint mapE {A B} (f : A -> res B) (l : list A) : res (list B) :=
  match l with
  | [] => Ok []
  | a :: t => b <- f a ;; bs <- mapE f t ;; Ok (b :: bs)
  end.

(** numpy broadcasting of two arrays of rank at most 1. *)
Definition bc2 {A B} (a : list A) (b : list B) : res (list (A * B)) :=
  match a, b with
  | [x], _ => Ok (map (fun y => (x, y)) b)
  | _, [y] => Ok (map (fun x => (x, y)) a)
  | _, _ => if (length a =? length b)%nat then Ok (combine a b) else Err ValueError
  end.

(** [np.full(max([shape...]), nan)], lines 582-585 and 676-680: shapes are compared
    as tuples, so () comes before (n,).  Simplification: a non-scalar [height]
    together with magnetic coordinates is not modelled. *)
Definition max_len (l : list arr) : nat :=
  match filter (fun a => negb (is0d a)) l with
  | [] => 1%nat
  | l' => fold_right Nat.max O (map (fun a => length (el a)) l')
  end.
Definition all_nan (l : list arr) : arr := out (forallb is0d l) (repeat None (max_len l)).

(** _boundary.py:606-610: [None] is the early return of NaN.  Writing NaN into
    an integer array is a ValueError. *)
Definition check_side (h : Z) (lat : arr) : res (option (list fl)) :=
  if existsb (wrong_side h) (el lat) then
    if forallb (wrong_side h) (el lat) then Ok None
    else if isint lat then Err ValueError
    else Ok (Some (map (fun v => if wrong_side h v then None else v) (el lat)))
  else Ok (Some (el lat)).

Definition current (b : bnd) : option rec :=
  if ((rind b <? 0) || (zlen (recs b) <=? rind b))%Z then None
  else nth_error (recs b) (Z.to_nat (rind b)).

(** _boundary.py:536-636, magnetic input.  Results: latitude, MLT, radius
    correction, and the caller's latitude array afterwards. *)
Definition normal_coord (b : bnd) (lat lt : arr) : res (arr * arr * arr * list fl) :=
  match current b with
  | None => let n := all_nan [lat; lt] in Ok (n, n, n, el lat)
  | Some rc =>
      ck <- check_side (hemi b) lat ;;
      match ck with
      | None => let n := all_nan [lat; lt] in Ok (n, n, n, el lat)
      | Some lats =>
          ps <- bc2 lats (el lt) ;;
          rs <- mapE (fun p => normal_pt (hemi b) (blat b) rc (fst p) (snd p)) ps ;;
          let z := is0d lat && is0d lt in
          Ok (out z (map fst rs), out z (map snd rs), out (is0d lt) (map (rfun rc) (el lt)),
              if isnd lat then lats else el lat)
      end
  end.

(** _boundary.py:638-740, magnetic output.  Only when every latitude is on the
    wrong side is NaN returned (686-687). *)
Definition revert_coord (b : bnd) (olat omlt rcorr : arr) : res (arr * arr) :=
  let z := is0d olat && is0d omlt && is0d rcorr in
  let nan := all_nan [olat; omlt; rcorr] in
  match current b with
  | None => Ok (nan, nan)
  | Some rc =>
      if forallb (wrong_side (hemi b)) (el olat) then Ok (nan, nan)
      else
        ps <- bc2 (el olat) (el omlt) ;;
        qs <- bc2 ps (el rcorr) ;;
        rs <- mapE (fun q => revert_pt (hemi b) (blat b) rc (fst (fst q)) (snd (fst q)) (snd q)) qs ;;
        Ok (out z (map fst rs), out z (map snd rs))
  end.

(** ** Geographic input and output *)

(** aacgmv2 at the time of the record: (geographic lat, lon, height) to magnetic
    lat and MLT; magnetic MLT to longitude; (magnetic lat, lon, height) to
    geographic lat and lon.  Arbitrary functions: aacgmv2 is not modelled. *)
Record aacgm := mkAacgm { to_mag : fl -> fl -> fl -> fl * fl; mlt2lon : fl -> fl;
                          to_geo : fl -> fl -> fl -> fl * fl }.

(** _boundary.py:591-601 for one position; [uth] is the UT of the record in hours.
    The aacgmv2 result is a fresh float array, so the caller's is never touched. *)
Definition geo_to_mag (g : aacgm) (uth : R) (lat slt height : fl) : res (fl * fl) :=
  lon <- slt2glon slt uth ;; Ok (to_mag g lat lon height).
(** _boundary.py:721-736 for one position. *)
Definition mag_to_geo (g : aacgm) (uth : R) (alat amlt height : fl) : res (fl * fl) :=
  let '(lat, lon) := to_geo g alat (mlt2lon g amlt) height in
  slt <- glon2slt lon uth ;; Ok (lat, slt).

(** normal_coord and revert_coord for a single geographic position. *)
Definition normal_coord_geo (b : bnd) (g : aacgm) (uth : R) (lat slt height : fl)
  : res (fl * fl * fl) :=
  match current b with
  | None => Ok (None, None, None)
  | Some rc =>
      p <- geo_to_mag g uth lat slt height ;;
      if wrong_side (hemi b) (fst p) then Ok (None, None, None)
      else q <- normal_pt (hemi b) (blat b) rc (fst p) (snd p) ;;
           Ok (fst q, snd q, rfun rc (snd p))
  end.
Definition revert_coord_geo (b : bnd) (g : aacgm) (uth : R) (olat omlt rcorr height : fl)
  : res (fl * fl) :=
  match current b with
  | None => Ok (None, None)
  | Some rc =>
      if wrong_side (hemi b) olat then Ok (None, None)
      else p <- revert_pt (hemi b) (blat b) rc olat omlt rcorr ;;
           mag_to_geo g uth (fst p) (snd p) height
  end.

(** ** Boundary latitudes *)

(** _boundary.py:786-788: one wrap only. *)
Definition wrap_once (v : fl) : fl :=
  match v with
  | None => None
  | Some x =>
      let y := if Rlt_dec x 0 then x + 24 else x in
      Some (if Rle_dec 24 y then y - 24 else y)
  end.

(** _boundary.py:814-834 for one MLT: the boundary latitude. *)
Definition boundary_pt (h : Z) (rc : rec) (mlt : fl) : res fl :=
  pm <- deg2hr (Some (phic rc)) ;;
  dm <- hr2rad (fmap2 (fun m p => m - p) mlt pm) (2 * PI) ;;
  let scale_r := fmap (fun c => rr rc + c) (rfun rc mlt) in
  let rad :=
    match dm, scale_r with
    | Some d, Some s =>
        let disc := s ^ 2 - (rcent rc * sin d) ^ 2 in
        if Rlt_dec disc 0 then None                      (* np.sqrt: NaN *)
        else Some (rcent rc * cos d + sqrt disc)
    | _, _ => None
    end in
  let rad := match rad with Some r => if Rlt_dec r 0 then None else Some r | None => None end in
  Ok (fmap (fun r => IZR h * (90 - r)) rad).

(** The stored boundaries: per record, nothing or (latitudes, MLTs). *)
Definition cache := list (option (list fl * list fl)).

(** Python list assignment [l[i] = v]. *)
Definition set_at {A} (l : list A) (i : Z) (v : A) : list A :=
  let n := zlen l in
  let k := Z.to_nat (if (i <? 0)%Z then n + i else i) in
  firstn k l ++ v :: skipn (S k) l.

(** _boundary.py:810-848: the loop over record indices.  An index outside the
    records is an IndexError; the records before it have been updated. *)
Fixpoint boundary_loop (h : Z) (rcs : list rec) (overwrite : bool) (mlts : list fl)
  (rinds : list Z) (c : cache) : cache * option exn :=
  match rinds with
  | [] => (c, None)
  | i :: rest =>
      match py_get c i, py_get rcs i with
      | Some old, Some rc =>
          match old, overwrite with
          | Some _, false => boundary_loop h rcs overwrite mlts rest c
          | _, _ =>
              match mapE (boundary_pt h rc) mlts with
              | Err e => (c, Some e)
              | Ok lats =>
                  boundary_loop h rcs overwrite mlts rest (set_at c i (Some (lats, mlts)))
              end
          end
      | _, _ => (c, Some IndexError)
      end
  end.

(** _boundary.py:742-849.  [stored] is [None] before the first call; [rec_ind]
    [None] means all records.  In-place addition of a float to an integer array
    is a casting error (a TypeError subclass).  Last result: the caller's MLT
    array afterwards. *)
Definition get_aacgm_boundary_lat (b : bnd) (stored : option cache) (mlt : arr)
  (rec_ind : option (list Z)) (overwrite : bool) : cache * option exn * list fl :=
  let c0 := match stored with Some c => c | None => repeat None (length (recs b)) end in
  if isint mlt then (c0, Some TypeError, el mlt)
  else
    let mlts := map wrap_once (el mlt) in
    let rinds := match rec_ind with
                 | Some l => l
                 | None => map Z.of_nat (seq 0 (length (recs b))) end in
    (boundary_loop (hemi b) (recs b) overwrite mlts rinds c0,
     if isnd mlt then mlts else el mlt).

(** ** Construction *)

(** _boundary.py:155-183: hemisphere check and sign of the reference latitude.
    [np.sign(None)] is a TypeError, so the documented [None] never works. *)
Definition init_lat (hemisphere : Z) (boundary_lat : option R) : res R :=
  if negb ((hemisphere =? 1) || (hemisphere =? -1))%Z then Err ValueError
  else match boundary_lat with
       | None => Err TypeError
       | Some l => Ok (if (sgn l =? hemisphere)%Z then l else l * -1)
       end.

(** _boundary.py:402-418: polar form of an x/y centre: ([r_cent], [phi_cent]). *)
Definition centre_of_xy (x y : R) : R * R :=
  let phi := degrees (atan2 y x) + 90 in
  (sqrt (x ^ 2 + y ^ 2), if Rlt_dec phi 0 then phi + 360 else phi).
