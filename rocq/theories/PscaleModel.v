(** Model of ocbpy/instruments/pysat_instruments.py, [add_ocb_to_data], scaling of variables with
    several coordinates: the selection of their values at each time (442-457, 492-499, 530-535)
    and the assignment of the scaled values (511-516, 537-540).

    Simplifications: as in PcoordModel; at least two of the variables used are data variables
    (447: otherwise the selection is no array); for the components of a vector, values of another
    number than the places are an error here whatever [VectorData] does with them. *)
From Coq Require Import String Ascii ZArith QArith List Bool.
From Verif Require Import PyBase FilesModel SmagModel TimeModel CycleModel DriverModel PysatModel PcoordModel.
Import ListNotations.
Open Scope list_scope.

(** Lines 444-456: the coordinates of [time_mask]; [to_array] broadcasts the data variables in the
    order of [pysat_names], [where] the result with [finite_mask]. *)
Definition time_coords (lat_data lt_data : bool) (latc ltc : list (str * nat)) (vars : list (list (str * nat))) : list (str * nat) :=
  unify [unify ((if lat_data then [latc] else []) ++ (if lt_data then [ltc] else []) ++ vars); sample_coords lat_data lt_data latc ltc vars].
(** What belongs to the dimensions [to], given for the dimensions [from]. *)
Definition reorder (from to : list str) (ix : list nat) : list nat := map (fun d => nth (nindex d from) ix 0%nat) to.
(** Lines 454-456: [finite_mask] at one time; [mask] has the coordinates [names]. *)
Definition time_mask (names : list str) (shape : list nat) (tdims : list str) (mask : list nat -> bool) (u : Z) : nd bool :=
  mkNd tdims (reorder names tdims shape)
    (fun tx => let ix := reorder tdims names tx in mask ix && (Z.of_nat (hd 0%nat ix) =? u)%Z).
Section Scale.
Context {V W U : Type} (nan : V).
(** [ocb.normal_coord] at a record; scaling at that record with what [normal_coord] returned
    (504-509 for the components of a vector, 518-523 and 537-539 for one variable). *)
Variables (normal : Z -> V -> V -> V -> W) (scale : Z -> W -> list V -> U).
(** numpy: one value, or one for each of [k] places. *)
Definition stretch (k : nat) (l : list V) : res (list V) :=
  if (length l =? k)%nat then Ok l else match l with [v] => Ok (repeat v k) | _ => Err ValueError end.
Fixpoint columns (names : list str) (shape : list nat) (tdims : list str) (mask : list nat -> bool) (u : Z) (k : nat) (datas : list (nd V)) : res (list (list V)) :=
  match datas with
  | [] => Ok []
  | d :: r =>
      flat <- flatten nan d (time_mask names shape tdims mask u) ;;
      vals <- stretch k flat ;;
      rest <- columns names shape tdims mask u k r ;; Ok (vals :: rest)
  end.
(** Number of a place in [iout] (443). *)
Fixpoint place_of (ix : list nat) (places : list (list nat)) : option nat :=
  match places with
  | [] => None
  | p :: r => if list_eqb Nat.eqb ix p then Some 0%nat else option_map S (place_of ix r)
  end.
Fixpoint nth_all (k : nat) (cols : list (list V)) : option (list V) :=
  match cols with
  | [] => Some []
  | c :: r => match nth_error c k, nth_all k r with Some v, Some t => Some (v :: t) | _, _ => None end
  end.
(** Lines 438-540, at every pass of the loop. *)
Fixpoint scale_all (l : located V) (tdims : list str) (mask : list nat -> bool) (datas : list (nd V)) (uind : list Z) (pairs : list (Z * Z)) (out : list nat -> option U) : res (list nat -> option U) :=
  match pairs with
  | [] => Ok out
  | (i, r) :: t =>
      match py_get uind i with
      | None => Err IndexError
      | Some u =>
          let places := filter (fun ix => mask ix && (Z.of_nat (hd 0%nat ix) =? u)%Z) (indices (lc_shape l)) in
          cols <- columns (lc_coords l) (lc_shape l) tdims mask u (length places) datas ;;
          scale_all l tdims mask datas uind t
            (fun ix => match place_of ix places with
                       | None => out ix
                       | Some k => match one_place normal l r ix, nth_all k cols with Some w, Some vs => Some (scale r w vs) | _, _ => None end
                       end)
      end
  end.
(** As [convert_all] (PcoordModel), for an output scaled from the variables [datas]; [vars] are the
    coordinates of all variables used but latitudes and local times. *)
Definition scaled_all (b : boundary) (lat_data lt_data : bool) (vars : list (list (str * nat))) (datas : list (nd V))
  (idx : str) (times : list Z) (latc ltc : list (str * nat)) (lat lt : list V) (h : heights V)
  (dat : list (str * nat)) (mask : list nat -> bool) (max_sdiff : Z) (mn mx : option num) (ks : list crit)
  : res (option (list str * list nat * (list nat -> option U))) :=
  if (b_records b =? 0)%Z then Ok None else
  l <- prepare false idx (length times) latc ltc lat lt h dat ;;
  if negb (length (lc_coords l) =? length (lc_shape l))%nat then Err ValueError else
  let uind := where_from 0 (map (fun i => existsb (fun ix => (hd 0 ix =? i)%nat && mask ix) (indices (lc_shape l))) (seq 0 (length times))) in
  let dtimes := flat_map (fun i => match py_get times i with Some t => [t] | None => [] end) uind in
  pairs <- vort_pairs b dtimes max_sdiff mn mx ks ;;
  if (length (lc_hshape l) =? 0)%nat && negb (length pairs =? 0)%nat then Err IndexError else
  out <- scale_all l (map fst (time_coords lat_data lt_data latc ltc vars)) mask datas uind pairs (fun _ => None) ;;
  Ok (Some (lc_coords l, lc_shape l, out)).
End Scale.
