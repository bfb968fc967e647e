(** Model of loading and constructing boundaries, ocbpy/_boundary.py:
    [OCBoundary.__init__] (124-193), [OCBoundary.inst_defaults] (288-326),
    [OCBoundary.load] (328-451), [OCBoundary._set_default_rfunc] (851-869),
    [EABoundary.__init__] (923-945), [EABoundary._set_default_rfunc] (947-971),
    the checks of [DualBoundary.__init__] (1084-1126) and the subscripts and loops of
    [OCBoundary.__repr__] (195-234).

    [np.genfromtxt] is in SsjModel: here a file is the table it returns, a list of rows of
    cells in the order of the column names.  A table of one row is returned as a
    0-dimensional array.  Column names are taken not to be attributes of numpy
    arrays, nor of the boundary object.  Correction arrays have rank 1. *)
From Coq Require Import String Reals Qreals ZArith QArith List Bool.
From Verif Require Import PyBase PyString RangeModel CoordModel TimeModel CycleModel.
Import ListNotations.
Open Scope string_scope.
Open Scope list_scope.

(** A value of the table: integer, float or text column. *)
Inductive cell := CInt (z : Z) | CFlt (x : num) | CStr (s : str).

(** [cols.index(name)] and the value of a named column in a row. *)
Fixpoint cell_of (cols : list string) (row : list cell) (name : string) : option cell :=
  match cols, row with
  | k :: cols', c :: row' => if String.eqb k name then Some c else cell_of cols' row' name
  | _, _ => None
  end.

(** lines 363-374: [Some true] for 'year soy' files, [Some false] for 'date time'
    files, [None] if the time columns are missing. *)
Definition time_flag (cols : list string) : option bool :=
  if str_in "soy" cols && str_in "year" cols then Some true
  else if str_in "date" cols && str_in "time" cols then Some false
  else None.

(** lines 391-398; a second of year that is not finite gives the text "nan", which
    strptime rejects. *)
Definition row_time (flag : bool) (cols : list string) (fmt : str) (row : list cell) : res Z :=
  if flag then
    match cell_of cols row "year", cell_of cols row "soy" with
    | Some (CInt y), Some (CFlt (Fin q)) => convert_time (Some y) (Some q) None None None None fmt
    | Some (CInt _), Some (CFlt _) => Err ValueError
    | _, _ => Err TypeError   (* not a table of genfromtxt *)
    end
  else
    match cell_of cols row "date", cell_of cols row "time" with
    | Some (CStr d), Some (CStr t) => convert_time None None None None (Some d) (Some t) fmt
    | _, _ => Err TypeError
    end.

(** lines 385-405: the times kept and their positions. *)
Definition no_window (stime etime : option Z) : bool := match stime, etime with None, None => true | _, _ => false end.
Fixpoint keep (stime etime : option Z) (i : nat) (times : list Z) : list (nat * Z) :=
  match times with
  | [] => []
  | t :: l =>
      if no_window stime etime
         || ((match stime with None => true | Some s => (s <=? t)%Z end)
             && (match etime with None => true | Some e => (t <=? e)%Z end))
      then (i, t) :: keep stime etime (S i) l
      else keep stime etime (S i) l
  end.

(** Attribute values: cells of the file, or computed reals. *)
Inductive val := VCell (c : cell) | VReal (x : fl).
(** A cell as a float; the infinities are taken as NaN. *)
Definition real_of (c : option cell) : fl :=
  match c with Some (CFlt (Fin q)) => Some (Q2R q) | Some (CInt z) => Some (IZR z) | _ => None end.
Definition has_xy (cols : list string) : bool := str_in "x" cols && str_in "y" cols.
(** lines 407-421: computed columns replace columns of the same name. *)
Definition value_of (cols : list string) (row : list cell) (name : string) : option val :=
  let x := real_of (cell_of cols row "x") in
  let y := real_of (cell_of cols row "y") in
  if has_xy cols && String.eqb name "r_cent" then Some (VReal (fmap2 (fun a b => fst (centre_of_xy a b)) x y))
  else if has_xy cols && String.eqb name "phi_cent" then Some (VReal (fmap2 (fun a b => snd (centre_of_xy a b)) x y))
  else option_map VCell (cell_of cols row name).
Definition names_of (cols : list string) : list string :=
  if has_xy cols then cols ++ ["r_cent"; "phi_cent"] else cols.

(** [rfunc] and [rfunc_kwargs] as given: None, a function (or dictionary), an array of
    rank 1, or anything else. *)
Inductive given (A : Type) := GNone | GOne (a : A) | GArray (l : list A) | GOther.
Arguments GNone {A}. Arguments GOne {A}. Arguments GArray {A}. Arguments GOther {A}.
(** The correction functions of ocb_correction.py used as defaults, or the user's. *)
Inductive corr (F : Type) := Circular | Elliptical | User (f : F).
Arguments Circular {F}. Arguments Elliptical {F}. Arguments User {F}.

(** lines 427-448. *)
Definition spread {A} (n : nat) (default : res A) (g : given A) : res (list A) :=
  match g with
  | GNone => d <- default ;; Ok (repeat d n)
  | GOne a => Ok (repeat a n)
  | GArray l => if (length l =? n)%nat then Ok l else Err ValueError
  | GOther => Err ValueError
  end.
(** lines 860-869. *)
Definition default_rfunc {F} (inst : option string) : res (corr F) :=
  match inst with
  | Some i => if str_in i ["image"; "dmsp-ssj"] then Ok Circular
              else if String.eqb i "ampere" then Ok Elliptical else Err ValueError
  | None => Err ValueError
  end.

(** The attributes set by [load]. *)
Record loaded (F K : Type) := mkLoaded {
  l_records : Z; l_rec_ind : Z; l_dtime : list Z;
  l_rfunc : list (corr F); l_kwargs : list K;
  l_attrs : list (string * list val) }.
Arguments mkLoaded {F K}. Arguments l_records {F K}. Arguments l_rec_ind {F K}. Arguments l_dtime {F K}.
Arguments l_rfunc {F K}. Arguments l_kwargs {F K}. Arguments l_attrs {F K}.

(** [column[itime]]. *)
Definition take {A} (idx : list nat) (l : list A) : res (list A) := mapE (fun i => getE l (Z.of_nat i)) idx.

Fixpoint attrs_of (cols : list string) (rows : list (list cell)) (idx : list nat) (names : list string)
  : res (list (string * list val)) :=
  match names with
  | [] => Ok []
  | n :: t =>
      col <- mapE (fun row => match value_of cols row n with Some v => Ok v | None => Err AttributeError end) rows ;;
      sel <- take idx col ;;
      rest <- attrs_of cols rows idx t ;;
      Ok ((n, sel) :: rest)
  end.

(** lines 328-451.  [None]: the time columns are missing, nothing is changed (372-374).
    A table of one row has shape (), and [odata.shape[0]] fails (386 or 390).  [noargs] is
    the empty dictionary. *)
Definition load {F K} (cols : list string) (fmt : str) (stime etime : option Z) (inst : option string)
  (rf : given (corr F)) (kw : given K) (noargs : K) (rows : list (list cell)) : res (option (loaded F K)) :=
  match time_flag cols with
  | None => Ok None
  | Some flag =>
      match rows with
      | [_] => Err IndexError
      | _ =>
          times <- mapE (row_time flag cols fmt) rows ;;
          let kept := keep stime etime O times in
          let n := length kept in
          fs <- spread n (default_rfunc inst) rf ;;
          ks <- spread n (Ok noargs) kw ;;
          attrs <- attrs_of cols rows (map fst kept) (names_of cols) ;;
          Ok (Some (mkLoaded (Z.of_nat n) (-1)%Z (map snd kept) fs ks attrs))
      end
  end.

(** ** Construction *)

(** lines 306-326: header lines, columns, time format, limits of the figure of merit. *)
Definition image_cols := ["year"; "soy"; "num_sectors"; "phi_cent"; "r_cent"; "r"; "a"; "r_err"; "fom"].
Definition inst_defaults (inst : option string) : nat * list string * str * num * num :=
  match inst with
  | Some i =>
      if String.eqb i "image" then (O, image_cols, s2l "", NInf, Fin 5)
      else if String.eqb i "ampere" then
        (O, ["date"; "time"; "r"; "x"; "y"; "fom"], s2l "%Y%m%d %H:%M", Fin (15 # 100), PInf)
      else if String.eqb i "dmsp-ssj" then
        (1%nat, ["sc"; "date"; "time"; "r"; "x"; "y"; "fom"; "x_1"; "y_1"; "x_2"; "y_2"], s2l "%Y-%m-%d %H:%M:%S", Fin 3, PInf)
      else (O, [], s2l "", NInf, PInf)
  | None => (O, [], s2l "", NInf, PInf)
  end.

(** The file system as seen by the constructor: the default file for (stime, etime,
    hemisphere, instrument, boundary type), [test_file], and the table of a file given the
    number of header lines and the columns. *)
Record files := mkFiles {
  default_file : option Z -> option Z -> Z -> string -> string -> res (option string * string);
  file_ok : string -> bool;
  table : string -> nat -> list string -> list (list cell) }.

Inductive fname := FNone | FNotString | FName (s : string).

(** A boundary object; [o_data] is [None] when nothing is loaded, then [rec_ind] and
    [records] are 0 and the correction function is as given. *)
Record obj (F K : Type) := mkObj {
  o_file : option string; o_inst : option string; o_hemi : Z; o_lat : R; o_min : num; o_max : num;
  o_rf : given (corr F); o_kw : given K; o_data : option (loaded F K) }.
Arguments mkObj {F K}. Arguments o_file {F K}. Arguments o_inst {F K}. Arguments o_hemi {F K}. Arguments o_lat {F K}.
Arguments o_min {F K}. Arguments o_max {F K}. Arguments o_rf {F K}. Arguments o_kw {F K}. Arguments o_data {F K}.

(** lines 128-153. *)
Definition pick_file (fs : files) (bound : string) (f : fname) (inst : option string) (stime etime : option Z) (hemisphere : Z)
  : res (option string * option string) :=
  match inst with
  | None => Ok (None, None)
  | Some i =>
      let i' := lower i in
      p <- (match f with
            | FNone | FNotString => Ok (None, i')
            | FName s => if String.eqb (lower s) "default" then default_file fs stime etime hemisphere i' bound
                         else Ok (Some s, i')
            end) ;;
      let '(s, i2) := p in
      Ok (match s with Some n => if file_ok fs n then Some n else None | None => None end, Some i2)
  end.

(** lines 124-193. *)
Definition init_ocb {F K} (fs : files) (f : fname) (inst : option string) (hemisphere : Z) (boundary_lat : option R)
  (stime etime : option Z) (rf : given (corr F)) (kw : given K) (noargs : K) : res (obj F K) :=
  p <- pick_file fs "ocb" f inst stime etime hemisphere ;;
  let '(file, i) := p in
  lat <- init_lat hemisphere boundary_lat ;;
  let '(hl, cols, fmt, mn, mx) := inst_defaults i in
  match file with
  | None => Ok (mkObj None i hemisphere lat mn mx rf kw None)
  | Some n =>
      let cols' := match cols with [] => image_cols | _ => cols end in
      d <- load cols' fmt stime etime i rf kw noargs (table fs n hl cols') ;;
      Ok (mkObj (Some n) i hemisphere lat mn mx rf kw d)
  end.

(** lines 962-971: the EAB default; the instrument is not lowered. *)
Definition default_eab_rfunc {F} (inst : option string) : res (given (corr F)) :=
  match inst with
  | None => Ok GNone
  | Some i => if str_in i [""; "default"; "image"; "dmsp-ssj"; "ampere"] then Ok (GOne Circular) else Err ValueError
  end.
(** lines 923-945. *)
Definition init_eab {F K} (fs : files) (f : fname) (inst : option string) (hemisphere : Z) (boundary_lat : option R)
  (stime etime : option Z) (rf : given (corr F)) (kw : given K) (noargs : K) : res (obj F K) :=
  rf' <- (match rf with GNone => default_eab_rfunc inst | _ => Ok rf end) ;;
  p <- (match f, inst with
        | FName s, Some i =>
            if String.eqb (lower s) "default" then
              q <- default_file fs stime etime hemisphere i "eab" ;;
              Ok (match fst q with Some n => FName n | None => FNone end, Some (snd q))
            else Ok (f, inst)
        | _, _ => Ok (f, inst)
        end) ;;
  init_ocb fs (fst p) (snd p) hemisphere boundary_lat stime etime rf' kw noargs.

(** lines 1090-1122: the checks of DualBoundary before pairing.  [eab] and [ocb] are the
    objects given, if any.  The latitudes tested are the arguments. *)
Definition init_dual {F K} (fs : files) (ef of_ : fname) (ei oi : option string) (hemisphere : Z) (eab_lat ocb_lat : R)
  (stime etime : option Z) (erf : given (corr F)) (ekw : given K) (orf : given (corr F)) (okw : given K) (noargs : K)
  (eab ocb : option (obj F K)) (max_delta : R) : res (obj F K * obj F K) :=
  if Rle_dec (Rabs ocb_lat) (Rabs eab_lat) then Err ValueError
  else if Rle_dec max_delta 0 then Err ValueError
  else
    e <- (match eab with Some x => Ok x | None => init_eab fs ef ei hemisphere (Some eab_lat) stime etime erf ekw noargs end) ;;
    o <- (match ocb with Some x => Ok x | None => init_ocb fs of_ oi hemisphere (Some ocb_lat) stime etime orf okw noargs end) ;;
    if (o_hemi o =? o_hemi e)%Z then Ok (e, o) else Err ValueError.

(** lines 195-234: what [__repr__] subscripts and iterates over; the text is not
    modelled.  A function or other single object given as [rfunc] cannot be
    iterated; nor can a string module path be built for one ([GOther] is left out). *)
Definition repr_ok {F K} (b : obj F K) : res unit :=
  match o_data b with
  | Some d => _ <- getE (l_dtime d) 0 ;; _ <- getE (l_dtime d) (-1) ;; Ok tt
  | None =>
      _ <- (match o_rf b with GNone | GArray _ => Ok tt | _ => Err TypeError end) ;;
      match o_kw b with GOther => Err TypeError | _ => Ok tt end
  end.
