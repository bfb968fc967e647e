(** Model of the attributes of VectorData (ocbpy/ocb_scaling.py) through its constructor
    and assignments: [__init__] (106-150), [__setattr__] (274-294), the setters (296-330,
    462-609), the tests of the shapes (360-434) and [clear_data] (612-627).

    Values are scalars or one-dimensional arrays; arrays of more dimensions are in
    ScalingModel.  Indices are integers and the other values reals or NaN; [__setattr__]
    (286-294) turns lists into arrays before a setter sees them.  An assignment that raises
    leaves the object it has changed so far, so each gives the object and the exception.
    The names, units, coordinate systems and scaling function of the object, and the
    logged warnings, are not part of this model; see LocModel for [_test_coords]. *)
From Coq Require Import Reals ZArith List Bool PeanoNat.
From Verif Require Import PyBase RangeModel CoordModel DualCoordModel VectorModel ScalingModel.
Import ListNotations.
Open Scope R_scope.

(** A scalar or a one-dimensional array. *)
Inductive av (A : Type) := Sc (a : A) | Ar (l : list A).
Arguments Sc {A}. Arguments Ar {A}.
Definition shape_of {A} (x : av A) : shape := match x with Sc _ => [] | Ar l => [List.length l] end.
(** [np.full(shape=s, fill_value=a)]. *)
Definition full {A} (s : shape) (a : A) : av A := match s with [] => Sc a | k :: _ => Ar (repeat a k) end.
(** Zero dimensions. *)
Definition is_scalar {A} (x : av A) : bool := scalar (shape_of x).
Definition all_nan (x : av fl) : bool := match x with Sc a => isnan a | Ar l => forallb isnan l end.

(** Python's order on tuples, its [max] and [min]. *)
Fixpoint tuple_ltb (a b : shape) : bool :=
  match a, b with
  | _, [] => false
  | [], _ :: _ => true
  | x :: a', y :: b' => (x <? y)%nat || ((x =? y)%nat && tuple_ltb a' b')
  end.
Definition max_shape (l : list shape) : shape :=
  match l with [] => [] | s :: r => fold_left (fun m x => if tuple_ltb m x then x else m) r s end.
Definition min_shape (l : list shape) : shape :=
  match l with [] => [] | s :: r => fold_left (fun m x => if tuple_ltb x m then x else m) r s end.

(** numpy's broadcasting of two values. *)
Definition lift2 {A B C} (f : A -> B -> C) (x : av A) (y : av B) : res (av C) :=
  match x, y with
  | Sc a, Sc b => Ok (Sc (f a b))
  | Sc a, Ar l => Ok (Ar (map (f a) l))
  | Ar l, Sc b => Ok (Ar (map (fun a => f a b) l))
  | Ar l, Ar m =>
      if (List.length l =? List.length m)%nat then Ok (Ar (map (fun p => f (fst p) (snd p)) (combine l m)))
      else match l, m with
           | [a], _ => Ok (Ar (map (f a) m))
           | _, [b] => Ok (Ar (map (fun a => f a b) l))
           | _, _ => Err ValueError
           end
  end.
(** ocb_scaling.py:470: [np.sqrt(vect_n**2 + vect_e**2 + vect_z**2)]. *)
Definition lengths (n e z : av fl) : res (av fl) :=
  ne <- lift2 (fun a b => (a, b)) n e ;;
  lift2 (fun p c => match fst p, snd p, c with Some a, Some b, Some d => Some (sqrt (a ^ 2 + b ^ 2 + d ^ 2)) | _, _, _ => None end) ne z.

(** The values computed by [set_ocb] that [clear_data] sets (612-627). *)
Record outputs := mkOut { r_n : av fl; r_e : av fl; r_z : av fl; r_mag : av fl; r_oquad : av fl; r_vquad : av fl;
                          r_angle : av fl; r_plat : av fl; r_pmlt : av fl }.
Record vdata := mkVd {
  d_ind : av Z; o_ind : av Z; d_lat : av fl; d_lt : av fl; d_h : av fl;
  d_n : av fl; d_e : av fl; d_z : av fl; d_mag : av fl;
  o_lat : av fl; o_mlt : av fl; o_rc : av fl; d_vs : shape; d_out : outputs }.
Definition with_dind v x := mkVd x (o_ind v) (d_lat v) (d_lt v) (d_h v) (d_n v) (d_e v) (d_z v) (d_mag v) (o_lat v) (o_mlt v) (o_rc v) (d_vs v) (d_out v).
Definition with_oind v x := mkVd (d_ind v) x (d_lat v) (d_lt v) (d_h v) (d_n v) (d_e v) (d_z v) (d_mag v) (o_lat v) (o_mlt v) (o_rc v) (d_vs v) (d_out v).
Definition with_lat v x := mkVd (d_ind v) (o_ind v) x (d_lt v) (d_h v) (d_n v) (d_e v) (d_z v) (d_mag v) (o_lat v) (o_mlt v) (o_rc v) (d_vs v) (d_out v).
Definition with_lt v x := mkVd (d_ind v) (o_ind v) (d_lat v) x (d_h v) (d_n v) (d_e v) (d_z v) (d_mag v) (o_lat v) (o_mlt v) (o_rc v) (d_vs v) (d_out v).
Definition with_h v x := mkVd (d_ind v) (o_ind v) (d_lat v) (d_lt v) x (d_n v) (d_e v) (d_z v) (d_mag v) (o_lat v) (o_mlt v) (o_rc v) (d_vs v) (d_out v).
Definition with_nez v n e z := mkVd (d_ind v) (o_ind v) (d_lat v) (d_lt v) (d_h v) n e z (d_mag v) (o_lat v) (o_mlt v) (o_rc v) (d_vs v) (d_out v).
Definition with_mag v x := mkVd (d_ind v) (o_ind v) (d_lat v) (d_lt v) (d_h v) (d_n v) (d_e v) (d_z v) x (o_lat v) (o_mlt v) (o_rc v) (d_vs v) (d_out v).
Definition with_coords v a b c := mkVd (d_ind v) (o_ind v) (d_lat v) (d_lt v) (d_h v) (d_n v) (d_e v) (d_z v) (d_mag v) a b c (d_vs v) (d_out v).
Definition with_vs v s := mkVd (d_ind v) (o_ind v) (d_lat v) (d_lt v) (d_h v) (d_n v) (d_e v) (d_z v) (d_mag v) (o_lat v) (o_mlt v) (o_rc v) s (d_out v).
Definition with_out v o := mkVd (d_ind v) (o_ind v) (d_lat v) (d_lt v) (d_h v) (d_n v) (d_e v) (d_z v) (d_mag v) (o_lat v) (o_mlt v) (o_rc v) (d_vs v) o.

(** ocb_scaling.py:612-627. *)
Definition cleared (s : shape) : outputs :=
  let nan := full s (@None R) in
  let zero := full s (Some 0) in
  mkOut nan nan nan nan zero zero nan nan nan.
Definition clear_data (v : vdata) : vdata := with_out v (cleared (d_vs v)).

(** The object after a call, and the exception it raised. *)
Definition outcome : Type := vdata * option exn.
Definition bindO (o : outcome) (f : vdata -> outcome) : outcome :=
  match snd o with None => f (fst o) | Some _ => o end.

(** ocb_scaling.py:308-312 and 326-330: the value that is stored. *)
Definition sized {A} (ind : av Z) (x : av A) : av A :=
  match x with Sc a => full (shape_of ind) a | Ar _ => x end.

(** ocb_scaling.py:360-400. *)
Definition grow (s : shape) (x : av fl) : av fl := match x with Sc a => full s a | Ar _ => x end.
Definition test_vector (v : vdata) : outcome :=
  let vs := distinct [] [shape_of (d_lat v); shape_of (d_lt v); shape_of (d_ind v);
                         shape_of (d_n v); shape_of (d_e v); shape_of (d_z v)] in
  let v1 := with_vs v (max_shape vs) in
  if (2 <? List.length vs)%nat || ((List.length vs =? 2)%nat && negb (scalar (min_shape vs))) then (v1, Some ValueError)
  else if (1 <? List.length vs)%nat && scalar (min_shape vs) then
    if is_scalar (d_ind v) then (v1, Some ValueError)
    else (with_nez v1 (grow (d_vs v1) (d_n v)) (grow (d_vs v1) (d_e v)) (grow (d_vs v1) (d_z v)), None)
  else (v1, None).

(** ocb_scaling.py:402-434.  The two messages are told apart by the setter of [ocb_ind]. *)
Inductive tested := Passed (v : vdata) | InputShapes | VectorShapes.
Definition test_bound (v : vdata) : tested :=
  let os := distinct [] [shape_of (o_lat v); shape_of (o_mlt v); shape_of (o_rc v)] in
  let oshape := max_shape os in
  if (negb (is_scalar (o_ind v)) && (scalar oshape || negb (shape_eqb oshape (shape_of (o_ind v)))))
     || (2 <? List.length os)%nat || ((List.length os =? 2)%nat && negb (scalar (min_shape os)))
  then InputShapes
  else if is_scalar (o_ind v) then Passed v
  else if is_scalar (d_ind v) then Passed (with_vs v oshape)
  else if shape_eqb oshape (d_vs v) then Passed v else VectorShapes.
Definition raising (t : tested) (v : vdata) : outcome :=
  match t with Passed v' => (v', None) | _ => (v, Some ValueError) end.

(** ocb_scaling.py:467-481.  A value that cannot be subtracted from the lengths raises. *)
Definition set_mag (x : av fl) (v : vdata) : outcome :=
  match lengths (d_n v) (d_e v) (d_z v) with
  | Err e => (v, Some e)
  | Ok s => if all_nan x then (with_mag v s, None)
            else match lift2 (fun a b : fl => (a, b)) x s with Ok _ => (with_mag v x, None) | Err e => (v, Some e) end
  end.

(** ocb_scaling.py:488-507. *)
Definition set_dat_ind (d : av Z) (v : vdata) : outcome :=
  bindO (test_vector (with_dind v d)) (fun v1 =>
  bindO (raising (test_bound v1) v1) (fun v2 =>
  set_mag (Sc None) (clear_data v2))).

(** ocb_scaling.py:514-544. *)
Definition unset (v : vdata) : vdata :=
  let nan := full (shape_of (o_ind v)) (@None R) in with_coords v nan nan nan.
Definition set_ocb_ind (o : av Z) (v : vdata) : outcome :=
  let v1 := with_oind v o in
  bindO (match test_bound v1 with
         | InputShapes =>
             let v2 := unset v1 in
             let v3 := if is_scalar (d_ind v) then with_vs v2 (shape_of o) else v2 in
             raising (test_bound v3) v3
         | t => raising t v1
         end) (fun v4 => (clear_data v4, None)).

(** The assignments of a user (462-609; [vect_n], [vect_e] and [vect_z] have no setter). *)
Inductive assign := DatInd (x : av Z) | OcbInd (x : av Z) | Lat (x : av fl) | Lt (x : av fl) | Height (x : av fl)
  | North (x : av fl) | East (x : av fl) | Vert (x : av fl) | Magn (x : av fl)
  | OcbLat (x : av fl) | OcbMlt (x : av fl) | RCorr (x : av fl).
Definition do_assign (a : assign) (v : vdata) : outcome :=
  match a with
  | DatInd x => set_dat_ind x v
  | OcbInd x => set_ocb_ind x v
  | Lat x => (with_lat v (sized (d_ind v) x), None)
  | Lt x => (with_lt v (sized (d_ind v) x), None)
  | Height x => (with_h v (sized (d_ind v) x), None)
  | North x => (with_nez v x (d_e v) (d_z v), None)
  | East x => (with_nez v (d_n v) x (d_z v), None)
  | Vert x => (with_nez v (d_n v) (d_e v) x, None)
  | Magn x => set_mag x v
  | OcbLat x => (with_coords v (sized (o_ind v) x) (o_mlt v) (o_rc v), None)
  | OcbMlt x => (with_coords v (o_lat v) (sized (o_ind v) x) (o_rc v), None)
  | RCorr x => (with_coords v (o_lat v) (o_mlt v) (sized (o_ind v) x), None)
  end.
(** The object after a history of assignments without exceptions. *)
Fixpoint run (h : list assign) (v : vdata) : res vdata :=
  match h with
  | [] => Ok v
  | a :: r => match do_assign a v with (v', None) => run r v' | (_, Some e) => Err e end
  end.

(** ocb_scaling.py:106-150, without the coordinate systems (131-132). *)
Definition construct (dat ocb : av Z) (lat lt h n e z mag olat omlt rc : av fl) : res vdata :=
  let none := full [] (@None R) in
  let v0 := mkVd dat ocb (sized dat lat) (sized dat lt) (sized dat h) n e z none none none none [] (cleared []) in
  match bindO (set_mag mag v0) test_vector with
  | (_, Some err) => Err err
  | (v1, None) =>
      let v2 := with_coords v1 (sized ocb olat) (sized ocb omlt) (sized ocb rc) in
      match raising (test_bound v2) v2 with
      | (_, Some err) => Err err
      | (v3, None) => Ok (clear_data v3)
      end
  end.
