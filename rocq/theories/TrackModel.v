(** Model of ocbpy/cycle_boundary.py: [satellite_track] (224-322).

    Floats are reals, NaN is None; latitudes and local times are given together, as arrays
    of the same shape (1-D here; [track2] is the same code on 2-D arrays and [track0] on
    0-D ones).  The crossings and tolerances are finite Python floats (a division by zero
    raises; numpy scalars would give infinities instead). *)
From Coq Require Import Reals ZArith List Bool.
From Verif Require Import PyBase RangeModel.
Import ListNotations.
Open Scope R_scope.

(** Comparisons of arrays: false for NaN. *)
Definition fle (a b : fl) : bool :=
  match a, b with Some x, Some y => if Rle_dec x y then true else false | _, _ => false end.
Definition flt (a b : fl) : bool :=
  match a, b with Some x, Some y => if Rlt_dec x y then true else false | _, _ => false end.

Section Track.
Context (x1 y1 x2 y2 : R) (h : Z) (del_x del_y past : R).
(** Lines 271-279: bad tolerances and hemispheres. *)
Definition refused : bool :=
  (if Rlt_dec del_x 0 then true else false) || (if Rlt_dec del_y 0 then true else false) ||
  (if Rlt_dec past 0 then true else false) || negb ((h =? 1)%Z || (h =? -1)%Z).
(** Lines 286-288. *)
Definition slope : R := (y1 - y2) / (x1 - x2).
Definition high_int : R := y1 + del_y - slope * (x1 + del_x).
Definition low_int : R := y1 - del_y - slope * (x1 - del_x).
(** Lines 291-293. *)
Definition track_xy (lat mlt : fl) : res (fl * fl) :=
  rad <- hr2rad (fmap (fun m => m - 6) mlt) (2 * PI) ;;
  let r := fmap (fun l => 90 - IZR h * l) lat in
  Ok (fmap2 (fun r t => r * cos t) r rad, fmap2 (fun r t => r * sin t) r rad).
(** Lines 296-299. *)
Definition in_band (p : fl * fl) : bool :=
  let y_low := fmap (fun x => slope * x + low_int) (fst p) in
  let y_high := fmap (fun x => slope * x + high_int) (fst p) in
  fle y_low (snd p) && fle (snd p) y_high.
(** Lines 303-304. *)
Definition dist1 (p : fl * fl) : fl := fmap2 (fun x y => sqrt ((x1 - x) ^ 2 + (y1 - y) ^ 2)) (fst p) (snd p).
Definition dist2 (p : fl * fl) : fl := fmap2 (fun x y => sqrt ((x2 - x) ^ 2 + (y2 - y) ^ 2)) (fst p) (snd p).
(** Lines 312 and 317. *)
Definition bound1 : R := 90 - sqrt (x1 ^ 2 + y1 ^ 2) - past.
Definition bound2 : R := 90 - sqrt (x2 ^ 2 + y2 ^ 2) - past.

(** [np.where] on a list (307-308), and [good[i] = False] (314, 319). *)
Fixpoint where_from (n : nat) (l : list bool) : list nat :=
  match l with [] => [] | b :: t => (if b then [n] else []) ++ where_from (S n) t end.
Fixpoint clear {A} (no : A) (i : nat) (l : list A) : list A :=
  match l, i with [], _ => [] | _ :: t, O => no :: t | a :: t, S i' => a :: clear no i' t end.
Fixpoint map2 {A B C} (f : A -> B -> C) (l : list A) (m : list B) : list C :=
  match l, m with a :: l', b :: m' => f a b :: map2 f l' m' | _, _ => [] end.
(** Lines 291-293 on arrays. *)
Fixpoint points (pts : list (fl * fl)) : res (list (fl * fl)) :=
  match pts with [] => Ok [] | (la, mt) :: t => p <- track_xy la mt ;; ps <- points t ;; Ok (p :: ps) end.
(** Lines 307-308. *)
Definition near1 (b : bool) (p : fl * fl) : bool := b && fle (dist1 p) (dist2 p).
Definition near2 (b : bool) (p : fl * fl) : bool := b && flt (dist2 p) (dist1 p).
(** Lines 313-314 and 318-319: those of the indices whose latitude is below the bound. *)
Definition too_low (bound : R) (lats : list fl) (ind : list nat) : list nat :=
  filter (fun i => flt (fmap Rabs (nth i lats None)) (Some bound)) ind.

(** The function on 1-D arrays. *)
Definition satellite_track (pts : list (fl * fl)) : res (list bool) :=
  if refused then Err ValueError
  else if Req_EM_T (x1 - x2) 0 then Err ZeroDivisionError
  else
    xy <- points pts ;;
    let good := map in_band xy in
    if existsb (fun b => b) good then
      let lats := map fst pts in
      let ione := where_from 0 (map2 near1 good xy) in
      let itwo := where_from 0 (map2 near2 good xy) in
      let good1 := fold_left (fun g i => clear false i g) (too_low bound1 lats ione) good in
      Ok (fold_left (fun g i => clear false i g) (too_low bound2 lats itwo) good1)
    else Ok good.

(** 0-D arrays: on the track, [lat[ione]] has too many indices (newer versions of numpy
    refuse [np.where] already, with ValueError). *)
Definition track0 (pt : fl * fl) : res bool :=
  if refused then Err ValueError
  else if Req_EM_T (x1 - x2) 0 then Err ZeroDivisionError
  else p <- track_xy (fst pt) (snd pt) ;; if in_band p then Err IndexError else Ok false.

(** 2-D arrays: [ione[0]] holds rows, and [good[rows] = False] clears whole rows. *)
Definition where2 (l : list (list bool)) : list (nat * nat) :=
  concat (map2 (fun r row => map (pair r) (where_from 0 row)) (seq 0 (length l)) l).
Definition too_low2 (bound : R) (lats : list (list fl)) (ind : list (nat * nat)) : list nat :=
  map fst (filter (fun rc => flt (fmap Rabs (nth (snd rc) (nth (fst rc) lats []) None)) (Some bound)) ind).
Definition clear_row (i : nat) (good : list (list bool)) : list (list bool) :=
  clear (repeat false (length (nth i good []))) i good.
Fixpoint points2 (rows : list (list (fl * fl))) : res (list (list (fl * fl))) :=
  match rows with [] => Ok [] | r :: t => p <- points r ;; ps <- points2 t ;; Ok (p :: ps) end.
Definition track2 (rows : list (list (fl * fl))) : res (list (list bool)) :=
  if refused then Err ValueError
  else if Req_EM_T (x1 - x2) 0 then Err ZeroDivisionError
  else
    xy <- points2 rows ;;
    let good := map (map in_band) xy in
    if existsb (existsb (fun b => b)) good then
      let lats := map (map fst) rows in
      let ione := where2 (map2 (map2 near1) good xy) in
      let itwo := where2 (map2 (map2 near2) good xy) in
      let good1 := fold_left (fun g i => clear_row i g) (too_low2 bound1 lats ione) good in
      Ok (fold_left (fun g i => clear_row i g) (too_low2 bound2 lats itwo) good1)
    else Ok good.
End Track.
