(** Model of ocbpy/instruments/pysat_instruments.py: [add_ocb_to_data] (33-585) and
    [reshape_pad_mask_flatten] (588-627).

    Modelled: the choice of the boundary object (171-233), the hemisphere (178-187, 235-238),
    the names of the output (240-247, 413-424, 513-516), the roles of the vectors (264-299),
    the choice of the samples (321-333), the combination of latitudes and local times on
    different coordinates (346-363), the output of instruments with one time coordinate
    (412-546) and the attributes the vectors are made from (476-510).  The instrument is
    given by its times and columns.  [normal_coord], [VectorData.set_ocb] and the scaling
    functions, modelled in CoordModel, VectorModel and ScalingModel, enter as a function of
    the boundary record and the sample.  Not modelled: heights on their own coordinates
    (365-391) and data with more coordinates than the locations (395-410), see PcoordModel and
    PscaleModel; metadata, see PmetaModel. *)
From Coq Require Import String Ascii ZArith QArith List Bool.
From Verif Require Import PyBase TimeModel FilesModel SmagModel CycleModel DriverModel.
Import ListNotations.
Open Scope string_scope.
Open Scope list_scope.
Open Scope Z_scope.

(** ** The boundary object *)
Inductive bkind := KOcb | KEab | KDual.
(** Line 193: [os.path.split(f)[-1]]. *)
Definition base_name (f : str) : str := last (split "/" f) [].
(** Lines 190-233: the class, and the file name it is given ([DualBoundary] is given none). *)
Definition choose (ocbfile : option str) : res (bkind * option str) :=
  let root := match ocbfile with None => [] | Some f => lowers (base_name f) end in
  let file := match ocbfile with
              | None => None
              | Some f => if member (lowers f) (map s2l ["eab"; "ocb"; "dual"]) then Some (s2l "default") else Some f
              end in
  let later w := match find (s2l w) root with Some (S _) => true | _ => false end in
  let absent w := match find (s2l w) root with None => true | Some _ => false end in
  if later "ocb" && absent "eab" then Ok (KOcb, file)
  else if absent "ocb" && later "eab" then Ok (KEab, file)
  else if str_eqb root "dual" then Ok (KDual, None)
  else Err ValueError.
(** Line 241: [ocb.__class__.__name__.split('oundary')[0].lower()]. *)
Definition bname (k : bkind) : str := match k with KOcb => "ocb" | KEab => "eab" | KDual => "dualb" end.

(** ** The hemisphere *)
(** [np.sign], [np.nanmax] and [np.nanmin]. *)
Definition nsign (x : num) : num :=
  match x with NaN => NaN | NInf => Fin (-1) | PInf => Fin 1 | Fin q => if Qeq_bool q 0 then Fin 0 else if Qle_bool 0 q then Fin 1 else Fin (-1) end.
Definition pick (better : num -> num -> bool) (a b : num) : num :=
  match a, b with NaN, _ => b | _, NaN => a | _, _ => if better b a then b else a end.
Definition nanmax (l : list num) : num := fold_left (pick (fun b a => nlt a b)) l NaN.
Definition nanmin (l : list num) : num := fold_left (pick nlt) l NaN.
(** Lines 174-187, when no boundary object is given: the times of the instrument are read
    first, so without samples this is an IndexError. *)
Definition detect_hemisphere (hemisphere : num) (lat : list num) : res num :=
  match lat with
  | [] => Err IndexError
  | _ =>
      if neqb hemisphere (Fin 0) then
        let m := nsign (nanmax lat) in
        if neqb m (Fin 0) then Ok (nsign (nanmin lat))
        else if neqb m (nsign (nanmin lat)) then Ok m else Err ValueError
      else Ok hemisphere
  end.

(** ** The samples *)
Definition nfinite (x : num) : bool := match x with Fin _ => true | _ => false end.
(** Lines 323-324, for one time: latitude and the values of [pysat_names] (which include it). *)
Definition pandas_keep (hemisphere : num) (s : num * list num) : bool :=
  neqb (nsign (fst s)) hemisphere && nfinite (nanmax (snd s)).
(** Lines 328-331 on one position; [snd s] holds the data variables of [pysat_names]. *)
Definition xarray_keep (hemisphere : num) (s : num * list num) : bool :=
  nfinite (nanmax (if nle hemisphere (nsign (fst s)) then snd s else map (fun _ => NaN) (snd s))).
(** Line 333: [np.where(finite_mask)]. *)
Fixpoint where_from (i : Z) (m : list bool) : list Z :=
  match m with [] => [] | b :: r => if b then i :: where_from (i + 1) r else where_from (i + 1) r end.

(** ** The output, for one time coordinate *)
Fixpoint put_at {A} (i : nat) (a : A) (l : list A) : list A :=
  match l, i with [], _ => [] | _ :: t, O => a :: t | b :: t, S i' => b :: put_at i' a t end.
(** Lines 467-473, 516, 538: [ocb_output[...][iout] = ...], [iout] being [[uind[idat]]].  [conv]
    gives the values computed for a sample with a boundary (463-539). *)
Fixpoint fill {V R : Type} (conv : R -> Z -> V) (uind : list Z) (pairs : list (Z * R)) (out : list (option V)) : list (option V) :=
  match pairs with
  | [] => out
  | (i, r) :: t =>
      fill conv uind t (match py_get uind i with Some s => put_at (Z.to_nat s) (Some (conv r s)) out | None => out end)
  end.
Section Output.
Context {V : Type}.
(** The values computed for a sample at a boundary record (463-539). *)
Variable conv : Z -> Z -> V.
(** Lines 333-338, 412-546: [times] the times of the samples, [keep] the mask; [None] when
    nothing is added to the instrument.  [np.unique(dat_ind[0])] is [dat_ind[0]] here.
    [single] when [height] is one number (316-319): line 464 indexes it for the first pair.
    Simplification: the pairs are computed first, so that the TypeError of a later pass would
    come before that IndexError (for sorted times it can only come from the first, C113). *)
Definition convert (single : bool) (b : boundary) (times : list Z) (keep : list bool) (max_sdiff : Z) (mn mx : option num) (ks : list crit) : res (option (list (option V))) :=
  if b_records b =? 0 then Ok None else
  let uind := where_from 0 keep in
  let dat := flat_map (fun i => match py_get times i with Some t => [t] | None => [] end) uind in
  pairs <- vort_pairs b dat max_sdiff mn mx ks ;;
  if single && negb (length pairs =? 0)%nat then Err IndexError else
  Ok (Some (fill conv uind pairs (repeat None (length times)))).
(** The samples: time, latitude and values. *)
Definition pandas_output (single : bool) (b : boundary) (hemisphere : num) (rows : list (Z * (num * list num))) :=
  convert single b (map fst rows) (map (fun r => pandas_keep hemisphere (snd r)) rows).
Definition xarray_output (single : bool) (b : boundary) (hemisphere : num) (rows : list (Z * (num * list num))) :=
  convert single b (map fst rows) (map (fun r => xarray_keep hemisphere (snd r)) rows).
End Output.

(** ** Names of the output *)
(** Lines 283, 413-424: the names for vector [eattr], and those assigned to (491, 513-516). *)
Definition vect_attrs : list str := map s2l ["ocb_n"; "ocb_e"; "ocb_z"; "ocb_mag"; "unscaled_r"; "scaled_r"].
Definition made_name (b eattr vattr : str) : str :=
  let ov := replace (eattr ++ "_"%char :: b ++ "_"%char :: vattr) "_ocb_" "_" in
  if str_eqb b "ocb" then ov else replace ov "ocb" b.
Definition used_name (b eattr vattr : str) : str := replace (eattr ++ "_"%char :: b ++ "_"%char :: vattr) "_ocb_" "_".

(** ** Vectors *)
(** The scaling function of a vector, as written by the caller or by 273 and 276. *)
Inductive scaling := SEvar | SCurl | SOther (n : Z).
Fixpoint remove_first (k : str) (l : list str) : list str :=
  match l with [] => [] | a :: r => if str_eqb k a then r else a :: remove_first k r end.
(** Lines 269-281: the vectors, [evar_names] and [curl_evar_names] after the call. *)
Fixpoint roles (evar curl : list str) (vecs : list (str * option scaling)) : res (list (str * option scaling) * list str * list str) :=
  match vecs with
  | [] => Ok ([], evar, curl)
  | (k, s) :: r =>
      if member k evar then '(v, e, c) <- roles (remove_first k evar) curl r ;; Ok ((k, Some SEvar) :: v, e, c)
      else if member k curl then '(v, e, c) <- roles evar (remove_first k curl) r ;; Ok ((k, Some SCurl) :: v, e, c)
      else match s with None => Err ValueError | Some _ => '(v, e, c) <- roles evar curl r ;; Ok ((k, s) :: v, e, c) end
  end.
(** Lines 478-509: the attributes each vector is made from.  [vector_init] starts as the
    defaults and is not set back between vectors. *)
Definition overlay {A} (own d : list (str * A)) : list (str * A) := fold_left (fun d kv => setkey (fst kv) (snd kv) d) own d.
Fixpoint vector_inits {A} (d : list (str * A)) (vecs : list (list (str * A))) : list (list (str * A)) :=
  match vecs with [] => [] | own :: r => let d' := overlay own d in d' :: vector_inits d' r end.

(** ** Labelled arrays *)
Record nd (V : Type) := mkNd { nd_dims : list str; nd_shape : list nat; nd_at : list nat -> V }.
Arguments mkNd {V}. Arguments nd_dims {V}. Arguments nd_shape {V}. Arguments nd_at {V}.
(** All the index lists of a shape, the last index changing fastest. *)
Fixpoint indices (shape : list nat) : list (list nat) :=
  match shape with [] => [[]] | n :: r => flat_map (fun i => map (cons i) (indices r)) (seq 0 n) end.
Definition nindex (d : str) (l : list str) : nat := match index d l with Ok i => i | Err _ => 0%nat end.
Fixpoint product (ls : list (list nat)) : list (list nat) :=
  match ls with [] => [[]] | l :: r => flat_map (fun i => map (cons i) (product r)) l end.
Section Flatten.
Context {V : Type} (nan : V).
(** Line 606: [data.where(mask, drop=True)]. *)
Definition kept (mask : nd bool) (k : nat) (n : nat) : list nat :=
  filter (fun i => existsb (fun ix => (nth k ix 0 =? i)%nat && nd_at mask ix) (indices (nd_shape mask))) (seq 0 n).
Fixpoint kept_from (mask : nd bool) (k : nat) (shape : list nat) : list (list nat) :=
  match shape with [] => [] | n :: r => kept mask k n :: kept_from mask (S k) r end.
Fixpoint list_eqb {A} (e : A -> A -> bool) (a b : list A) : bool :=
  match a, b with [], [] => true | x :: a', y :: b' => e x y && list_eqb e a' b' | _, _ => false end.
(** Lines 617-618: numpy broadcasting of the reversed shapes; trailing unit dimensions of the
    data beyond those of the mask are dropped. *)
Fixpoint fits (shape mshape : list nat) : bool :=
  match shape, mshape with
  | [], _ => true
  | s :: r, m :: t => ((s =? m) || (s =? 1))%nat && fits r t
  | s :: r, [] => (s =? 1)%nat && fits r []
  end.
Fixpoint squash (shape ix : list nat) : list nat :=
  match shape with
  | [] => []
  | s :: r => (if (s =? 1)%nat then 0%nat else hd 0%nat ix) :: squash r (tl ix)
  end.
Definition flatten (data : nd V) (mask : nd bool) : res (list V) :=
  if list_eqb str_eqb (nd_dims mask) (nd_dims data) then
    if list_eqb Nat.eqb (nd_shape mask) (nd_shape data) then
      Ok (map (fun ix => if nd_at mask ix then nd_at data ix else nan) (product (kept_from mask 0 (nd_shape mask))))
    else Err ValueError
  else
    let data_dims := filter (fun d => member d (nd_dims data)) (nd_dims mask) in
    let tdims := data_dims ++ filter (fun d => negb (member d data_dims)) (nd_dims data) in
    let tshape := map (fun d => nth (nindex d (nd_dims data)) (nd_shape data) 0%nat) tdims in
    let tat := fun ix => nd_at data (map (fun d => nth (nindex d tdims) ix 0%nat) (nd_dims data)) in
    '(fshape, fat) <-
      (if (length data_dims <? length (nd_dims mask))%nat then
         if fits tshape (nd_shape mask) then Ok (nd_shape mask, fun ix => tat (squash tshape ix)) else Err ValueError
       else Ok (tshape, tat)) ;;
    let n := length (nd_shape mask) in
    if list_eqb Nat.eqb (firstn n fshape) (nd_shape mask) then
      Ok (flat_map (fun ix => map (fun r => fat (ix ++ r)) (indices (skipn n fshape))) (filter (nd_at mask) (indices (nd_shape mask))))
    else Err IndexError.
End Flatten.

(** ** Latitudes and local times on different coordinates *)
(** Lines 361-363: [np.meshgrid(lat, lt)] on the flattened values, then [reshape]: the number
    of values must be that of the new shape. *)
Definition size (shape : list nat) : nat := fold_right Nat.mul 1%nat shape.
Definition meshgrid {V} (lat lt : list V) : list V * list V := (concat (map (fun _ => lat) lt), concat (map (fun t => map (fun _ => t) lat) lt)).
Definition reshape {V} (l : list V) (shape : list nat) : res (list V) := if (length l =? size shape)%nat then Ok l else Err ValueError.
(** Lines 346-363 in the xarray format: names and sizes of the coordinates, values in row-major
    order; [combo_shape] are the coordinates of the local times, then the others of the latitudes. *)
Definition combine_locations {V} (lat_coords lt_coords : list (str * nat)) (lat lt : list V) : res (list nat * list V * list V) :=
  let combo := map snd lt_coords ++ map snd (filter (fun c => negb (member (fst c) (map fst lt_coords))) lat_coords) in
  if list_eqb Nat.eqb (map snd lat_coords) combo && list_eqb Nat.eqb (map snd lt_coords) combo then Ok (combo, lat, lt)
  else let '(a, b) := meshgrid lat lt in a' <- reshape a combo ;; b' <- reshape b combo ;; Ok (combo, a', b').
