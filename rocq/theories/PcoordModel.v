(** Model of ocbpy/instruments/pysat_instruments.py, [add_ocb_to_data], for data and locations
    with several coordinates: the heights (315-319), the combination of latitudes, local times
    and heights (340-393), their repetition along other coordinates of the data (395-410), the
    loop over the times (426-473) and the coordinates of the output (550-552).

    Arrays are their shape and their values in row-major order.  Simplifications: the
    coordinates of a variable are its dimensions, in this order; the mask of the samples has
    the coordinates of the output, the first of them being the time (which is so or not,
    [sample_coords]); errors in the shape of
    the output (552) are raised before the loop. *)
From Coq Require Import String Ascii ZArith QArith List Bool.
From Verif Require Import PyBase FilesModel SmagModel TimeModel CycleModel DriverModel PysatModel.
Import ListNotations.
Open Scope list_scope.

(** Lines 315-319: a variable of the instrument, or what the caller gave (one number has the
    shape of no dimensions). *)
Inductive heights (V : Type) := HVar (coords : list (str * nat)) (vals : list V) | HArr (shape : list nat) (vals : list V).
Arguments HVar {V}. Arguments HArr {V}.
Definition hshape {V} (h : heights V) : list nat := match h with HVar c _ => map snd c | HArr s _ => s end.
Definition hvals {V} (h : heights V) : list V := match h with HVar _ v => v | HArr _ v => v end.

(** [ocb_coords], the shape of [lat] and [lt], and their values; shape and values of [height]. *)
Record located (V : Type) := mkLoc { lc_coords : list str; lc_shape : list nat; lc_lat : list V; lc_lt : list V; lc_hshape : list nat; lc_h : list V }.
Arguments mkLoc {V}. Arguments lc_coords {V}. Arguments lc_shape {V}. Arguments lc_lat {V}. Arguments lc_lt {V}. Arguments lc_hshape {V}. Arguments lc_h {V}.
Notation shape_eq := (list_eqb Nat.eqb).

(** xarray's broadcasting: coordinates in the order in which they first occur. *)
Definition unify (vars : list (list (str * nat))) : list (str * nat) :=
  fold_left (fun acc v => acc ++ filter (fun c => negb (member (fst c) (map fst acc))) v) vars [].
(** Lines 330-335: the coordinates of [finite_mask], and so of [dat_ind].  [where] broadcasts
    every data variable with the latitudes, [to_array] all data variables with each other, in
    the order of [pysat_names] (246-297); [lat_data], [lt_data]: latitudes and local times
    are data variables and not coordinates of the instrument; [vars] the other variables. *)
Definition sample_coords (lat_data lt_data : bool) (latc ltc : list (str * nat)) (vars : list (list (str * nat))) : list (str * nat) :=
  unify (map (fun c => unify [c; latc]) ((if lat_data then [latc] else []) ++ (if lt_data then [ltc] else []) ++ vars)).

Section Locations.
Context {V : Type}.
(** Lines 365-391: [names], [combo], [lat] and [lt] are those after line 363, where the shape
    of the latitudes is [combo]. *)
Definition add_height (names : list str) (combo : list nat) (lat lt : list V) (h : heights V) : res (located V) :=
  match hshape h with
  | [] => Ok (mkLoc names combo lat lt combo (flat_map (fun v => repeat v (size combo)) (hvals h)))
  | _ :: _ =>
      if shape_eq (hshape h) combo then Ok (mkLoc names combo lat lt combo (hvals h)) else
      match h with
      | HVar coords vals =>
          let new := filter (fun c => negb (member (fst c) names)) coords in
          match new with
          | [] => v <- reshape vals combo ;; Ok (mkLoc names combo lat lt combo v)
          | _ :: _ =>
              let combo' := combo ++ map snd new in
              let '(a, hh) := meshgrid lat vals in
              let '(b, _) := meshgrid lt vals in
              a' <- reshape a combo' ;; h' <- reshape hh combo' ;; b' <- reshape b combo' ;;
              Ok (mkLoc (names ++ map fst new) combo' a' b' combo' h')
          end
      | HArr shape vals =>
          if (length shape =? length combo)%nat then v <- reshape vals combo ;; Ok (mkLoc names combo lat lt combo v)
          else Err ValueError
      end
  end.
(** Lines 340-393; [n] is the number of times, [idx] the name of their coordinate. *)
Definition locate (pandas : bool) (idx : str) (n : nat) (latc ltc : list (str * nat)) (lat lt : list V) (h : heights V) : res (located V) :=
  other <- (if negb (shape_eq (map snd latc) (map snd ltc)) then Ok true
            else match map snd latc with
                 | [] => Err IndexError
                 | m :: _ => Ok (negb (m =? n)%nat || negb (shape_eq (hshape h) (map snd latc)) && (0 <? length (hshape h))%nat)
                 end) ;;
  if (other : bool) then
    if pandas then Err ValueError else
    '(combo, a, b) <- combine_locations latc ltc lat lt ;;
    add_height (map fst ltc ++ map fst (filter (fun c => negb (member (fst c) (map fst ltc))) latc)) combo a b h
  else Ok (mkLoc [idx] (map snd latc) lat lt (hshape h) (hvals h)).
(** Lines 395-410: [np.full] of the reversed shape with the transposed values, transposed;
    the values have the shape [shape], or none. *)
Definition along (shape new : list nat) (vshape : list nat) (vals : list V) : list V :=
  match vshape with
  | [] => flat_map (fun v => repeat v (size (shape ++ new))) vals
  | _ :: _ => flat_map (fun v => repeat v (size new)) vals
  end.
Definition widen (dat : list (str * nat)) (l : located V) : located V :=
  if (length (lc_coords l) <? length dat)%nat then
    let new := filter (fun c => negb (member (fst c) (lc_coords l))) dat in
    let combo := lc_shape l ++ map snd new in
    mkLoc (lc_coords l ++ map fst new) combo
      (along (lc_shape l) (map snd new) (lc_shape l) (lc_lat l)) (along (lc_shape l) (map snd new) (lc_shape l) (lc_lt l))
      combo (along (lc_shape l) (map snd new) (lc_hshape l) (lc_h l))
  else l.
(** Lines 340-410. *)
Definition prepare (pandas : bool) (idx : str) (n : nat) (latc ltc : list (str * nat)) (lat lt : list V) (h : heights V) (dat : list (str * nat)) : res (located V) :=
  l <- locate pandas idx n latc ltc lat lt h ;; Ok (widen dat l).

(** ** The loop over the times *)
(** The place of a position in row-major order. *)
Fixpoint offset (shape ix : list nat) : nat :=
  match shape, ix with n :: r, i :: t => (i * size r + offset r t)%nat | _, _ => 0%nat end.
Definition at_place (shape : list nat) (vals : list V) (ix : list nat) : option V := nth_error vals (offset shape ix).
Context {W : Type}.
(** [ocb.normal_coord] at a boundary record (462-464). *)
Variable normal : Z -> V -> V -> V -> W.
(** Lines 442-464: [iout], the places of the samples at one time; the values there. *)
Definition one_place (l : located V) (r : Z) (ix : list nat) : option W :=
  match at_place (lc_shape l) (lc_lat l) ix, at_place (lc_shape l) (lc_lt l) ix, at_place (lc_hshape l) (lc_h l) ix with
  | Some a, Some b, Some c => Some (normal r a b c)
  | _, _, _ => None
  end.
(** Lines 466-473, at every pass of the loop. *)
Fixpoint fill_all (l : located V) (mask : list nat -> bool) (uind : list Z) (pairs : list (Z * Z)) (out : list nat -> option W) : list nat -> option W :=
  match pairs with
  | [] => out
  | (i, r) :: t =>
      fill_all l mask uind t
        (fun ix => match py_get uind i with
                   | Some u => if mask ix && (Z.of_nat (hd 0%nat ix) =? u)%Z then one_place l r ix else out ix
                   | None => out ix
                   end)
  end.
(** Lines 335-338, 340-410, 426-474 and 544-552: coordinates, shape and values of the output.
    [times] are those of the instrument, [mask] tells the samples. *)
Definition convert_all (b : boundary) (pandas : bool) (idx : str) (times : list Z) (latc ltc : list (str * nat)) (lat lt : list V) (h : heights V)
  (dat : list (str * nat)) (mask : list nat -> bool) (max_sdiff : Z) (mn mx : option num) (ks : list crit)
  : res (option (list str * list nat * (list nat -> option W))) :=
  if (b_records b =? 0)%Z then Ok None else
  l <- prepare pandas idx (length times) latc ltc lat lt h dat ;;
  if negb (length (lc_coords l) =? length (lc_shape l))%nat then Err ValueError else
  let uind := where_from 0 (map (fun i => existsb (fun ix => (hd 0 ix =? i)%nat && mask ix) (indices (lc_shape l))) (seq 0 (length times))) in
  let dtimes := flat_map (fun i => match py_get times i with Some t => [t] | None => [] end) uind in
  pairs <- vort_pairs b dtimes max_sdiff mn mx ks ;;
  if (length (lc_hshape l) =? 0)%nat && negb (length pairs =? 0)%nat then Err IndexError else
  Ok (Some (lc_coords l, lc_shape l, fill_all l mask uind pairs (fun _ => None))).
End Locations.
