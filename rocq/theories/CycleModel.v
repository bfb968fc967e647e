(** Model of record cycling and of data/boundary matching:
    ocbpy/_boundary.py [OCBoundary.get_next_good_ocb_ind] and
    ocbpy/cycle_boundary.py [retrieve_all_good_indices], [match_data_ocb].

    Times are integer microseconds (datetime has microsecond resolution).
    Python's [total_seconds()] is a correctly rounded float; for differences
    up to 2^33 - 1 seconds it orders exactly like the integer microsecond count,
    which is what the model compares (proved as C181). *)
From Coq Require Import String ZArith QArith List Bool.
From Verif Require Import PyBase.
Import ListNotations.
Open Scope string_scope.
Open Scope list_scope.
Open Scope Z_scope.

(** An attribute of a boundary object: a numpy array (one value per record) or
    anything that cannot be subscripted by the record index (an int, None, a
    method...; [getattr(self, ckey)[self.rec_ind]] is then a TypeError). *)
Inductive attr := AArr (l : list num) | AScalar.

(** The part of an OCBoundary/EABoundary object used for cycling
    (_boundary.py:161-173): [records], [rec_ind], [dtime], [fom], the FoM limits
    and the remaining attributes by name. *)
Record boundary := mkB {
  b_records : Z;
  b_rec_ind : Z;
  b_dtime : list Z;
  b_fom : list num;
  b_min_fom : num;
  b_max_fom : num;
  b_attrs : list (string * attr)
}.

Definition set_rec_ind (b : boundary) (i : Z) : boundary :=
  mkB (b_records b) i (b_dtime b) (b_fom b) (b_min_fom b) (b_max_fom b)
      (b_attrs b).

(** [getattr(self, key)] / [hasattr(self, key)] (_boundary.py:486, 507).
    [dtime] values are compared as microseconds. *)
Definition getattr (b : boundary) (k : string) : option attr :=
  if String.eqb k "fom" then Some (AArr (b_fom b))
  else if String.eqb k "dtime" then
    Some (AArr (map (fun t => Fin (inject_Z t)) (b_dtime b)))
  else assoc k (b_attrs b).

(** A keyword criterion [key=(op, value)] (_boundary.py:464-468). *)
Definition crit := (string * (string * num))%type.

(** The if/elif chain of _boundary.py:508-522: does the criterion set
    [good = False]? *)
Definition crit_rejects (op : string) (test_val v : num) : bool :=
  if String.eqb op "min" && nle test_val v then true
  else if String.eqb op "mineq" && nlt test_val v then true
  else if String.eqb op "equal" && negb (neqb test_val v) then true
  else if String.eqb op "maxeq" && nlt v test_val then true
  else if String.eqb op "max" && nle v test_val then true
  else false.

(** _boundary.py:483-489: criteria on unknown attributes are dropped. *)
Definition known_crits (b : boundary) (ks : list crit) : list crit :=
  filter (fun kc => match getattr b (fst kc) with
                    | Some _ => true | None => false end) ks.

(** _boundary.py:506-522: the custom criteria at the current record. *)
Fixpoint crits_good (b : boundary) (i : Z) (ks : list crit) : res bool :=
  match ks with
  | [] => Ok true
  | (k, (op, v)) :: t =>
      match getattr b k with
      | Some (AArr l) =>
          tv <- getE l i ;;
          if crit_rejects op tv v then Ok false else crits_good b i t
      | _ => Err TypeError
      end
  end.

(** _boundary.py:501-532: the while loop.  Returns the final [rec_ind]. *)
Fixpoint scan (fuel : nat) (b : boundary) (mn mx : num) (ks : list crit)
  (i : Z) : res Z :=
  if i <? b_records b then
    match fuel with
    | O => Err OutOfFuel
    | S f =>
        good <- crits_good b i ks ;;
        if good then
          tv <- getE (b_fom b) i ;;
          if nle mn tv && nle tv mx then Ok i
          else scan f b mn mx ks (i + 1)
        else scan f b mn mx ks (i + 1)
    end
  else Ok i.

(** _boundary.py:453-534 [get_next_good_ocb_ind], as a function from the
    current to the new [rec_ind]. *)
Definition next_rec (b : boundary) (min_merit max_merit : option num)
  (kwargs : list crit) (rec : Z) : res Z :=
  let mn := match min_merit with Some m => m | None => b_min_fom b end in
  let mx := match max_merit with Some m => m | None => b_max_fom b end in
  scan (Z.to_nat (b_records b - (rec + 1))) b mn mx (known_crits b kwargs)
       (rec + 1).

Definition get_next_good_ocb_ind (b : boundary) (min_merit max_merit : option num)
  (kwargs : list crit) : res boundary :=
  r <- next_rec b min_merit max_merit kwargs (b_rec_ind b) ;;
  Ok (set_rec_ind b r).

(** cycle_boundary.py:55-59: the while loop of retrieve_all_good_indices. *)
Fixpoint retrieve_loop (fuel : nat) (b : boundary) (mn mx : option num)
  (ks : list crit) (acc : list Z) : res (list Z) :=
  if b_rec_ind b <? b_records b then
    match fuel with
    | O => Err OutOfFuel
    | S f =>
        b' <- get_next_good_ocb_ind b mn mx ks ;;
        retrieve_loop f b' mn mx ks
          (if b_rec_ind b' <? b_records b' then app acc [b_rec_ind b'] else acc)
    end
  else Ok acc.

(** cycle_boundary.py:18-65 [retrieve_all_good_indices]: the list and the
    boundary object afterwards ([rec_ind] restored, line 62). *)
Definition retrieve_all_good_indices (b : boundary) (mn mx : option num)
  (ks : list crit) : res (list Z * boundary) :=
  let icurrent := b_rec_ind b in
  let b0 := set_rec_ind b (-1) in
  l <- retrieve_loop (S (S (Z.to_nat (b_records b)))) b0 mn mx ks [] ;;
  Ok (l, set_rec_ind b icurrent).

(** ** match_data_ocb, cycle_boundary.py:68-221.

    The boundary object enters through its record count, its times and its
    cycling method ([cycle], line 123 or 128), so that the same code serves
    OCBoundary, EABoundary and DualBoundary as in Python. *)
Section Match.
  Variable records : Z.
  Variable dtime : list Z.
  Variable cycle : Z -> res Z.
  Variable dat : list Z.
  Variable tol : Z.       (* max_tol in microseconds *)

  (** Lines 161-167: skip data before the first boundary; [None] is Python's
      [None] return. *)
  Fixpoint skip_early (fuel : nat) (idat first : Z) : res (option Z) :=
    match fuel with
    | O => Err OutOfFuel
    | S f =>
        d <- getE dat idat ;;
        if d <? first then
          (if zlen dat <=? idat + 1 then Ok None
           else skip_early f (idat + 1) first)
        else Ok (Some idat)
    end.

  (** Lines 198-204: cycle on while the next record is strictly closer.
      [rec sdiff] belong to the current record, [lastd lastr] to the best so
      far; returns [last_iocb]. *)
  Fixpoint descend (fuel : nat) (d rec sdiff lastd lastr : Z) : res Z :=
    if Z.abs sdiff <? Z.abs lastd then
      match fuel with
      | O => Err OutOfFuel
      | S f =>
          rec' <- cycle rec ;;
          if rec' <? records then
            t <- getE dtime rec' ;;
            descend f d rec' (t - d) sdiff rec
          else descend f d rec' sdiff sdiff rec
      end
    else Ok lastr.

  (** Lines 174-221.  [last] is the value of the variable [sdiff] left by the
      previous iteration (unbound before the first). *)
  Fixpoint main_loop (fuel : nat) (rec idat : Z) (last : option Z)
    : res (option Z * Z) :=
    if (idat <? zlen dat) && (rec <? records) then
      match fuel with
      | O => Err OutOfFuel
      | S f =>
          t <- getE dtime rec ;;
          d <- getE dat idat ;;
          let sdiff := t - d in
          if sdiff <? - tol then
            rec' <- cycle rec ;;
            main_loop f rec' idat (Some sdiff)
          else if tol <? sdiff then
            main_loop f rec (idat + 1) (Some sdiff)
          else
            rec' <- cycle rec ;;
            (if rec' <? records then
               t' <- getE dtime rec' ;;
               last_iocb <- descend (S (Z.to_nat (records - rec')))
                              d rec' (t' - d) sdiff rec ;;
               Ok (Some idat, last_iocb)
             else Ok (Some idat, rec))
      end
    else if idat =? 0 then
      match last with
      | None => Err NameError
      | Some sdiff =>
          if tol <? Z.abs sdiff then Ok (None, rec) else Ok (Some idat, rec)
      end
    else Ok (Some idat, rec).

  (** Lines 169-221, once the record index is set. *)
  Definition match_from (rec idat : Z) : res (option Z * Z) :=
    t <- getE dtime rec ;;
    d <- getE dat idat ;;
    if t =? d then Ok (Some idat, rec)
    else main_loop (S (Z.to_nat (records - rec) + Z.to_nat (zlen dat - idat)))
                   rec idat None.

  (** Lines 149-221: returns (idat or None, new rec_ind). *)
  Definition match_core (rec idat : Z) : res (option Z * Z) :=
    if rec <? 0 then
      rec1 <- cycle rec ;;
      if records <=? rec1 then Ok (Some idat, rec1)
      else
        t <- getE dtime rec1 ;;
        o <- skip_early (S (Z.to_nat (zlen dat - idat))) idat (t - tol) ;;
        match o with
        | None => Ok (None, rec1)
        | Some idat1 => match_from rec1 idat1
        end
    else match_from rec idat.
End Match.

(** One second in microseconds. *)
Definition usec : Z := 1000000.

(** cycle_boundary.py:68-221 for an OCBoundary or EABoundary object.
    [max_tol] is in whole seconds (documented int; a float would fail in the
    "{:d}" log messages at lines 185 and 217). *)
Definition match_data_ocb (b : boundary) (dat : list Z) (idat max_tol : Z)
  (min_merit max_merit : option num) (kwargs : list crit)
  : res (option Z * boundary) :=
  if zlen dat <=? idat then Ok (Some idat, b)
  else if b_records b <=? b_rec_ind b then Ok (Some idat, b)
  else
    '(o, r) <- match_core (b_records b) (b_dtime b)
                 (next_rec b min_merit max_merit kwargs) dat (max_tol * usec)
                 (b_rec_ind b) idat ;;
    Ok (o, set_rec_ind b r).
