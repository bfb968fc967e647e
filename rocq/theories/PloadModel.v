(** Model of ocbpy/instruments/pysat_instruments.py, [add_ocb_to_data] (34-584): the names
    tested and collected, and the period of the boundaries that are loaded when none are given.

    A pysat Instrument is the names of its variables, its times (microseconds) and the columns
    used.  Vectors are the dictionaries given, as lists of pairs; the values of keys other than
    the components are not looked at here. *)
From Coq Require Import String Ascii ZArith List Bool.
From Verif Require Import PyBase TimeModel FilesModel SmagModel CycleModel CoordModel LoadModel LoadSpec DriverModel PysatModel.
Import ListNotations.
Open Scope string_scope.
Open Scope list_scope.
Open Scope Z_scope.

(** ** Names *)
(** Lines 141-160. *)
Definition known (vars : list str) (vecs : list (str * list (str * str))) (n : str) : bool := member n vars || member n (map fst vecs).
Definition check_names (is_inst : bool) (vars : list str) (mlat mlt : str) (evar curl : list str) (vecs : list (str * list (str * str))) : res unit :=
  if negb is_inst then Err ValueError
  else if negb (member mlat vars) then Err ValueError
  else if negb (member mlt vars) then Err ValueError
  else if negb (forallb (known vars vecs) evar) then Err ValueError
  else if negb (forallb (known vars vecs) curl) then Err ValueError
  else Ok tt.

Definition add_new (n : str) (l : list str) : list str := if member n l then l else l ++ [n].
(** Lines 252-258. *)
Definition add_vars (vars names l : list str) : list str := fold_left (fun l n => if member n vars then add_new n l else l) names l.
(** Line 267. *)
Definition components : list str := map s2l ["vect_n"; "vect_e"; "vect_z"].
(** Lines 287-299: the names, and the components of one vector. *)
Fixpoint vector_names (vars : list str) (own : list (str * str)) (l comps : list str) : res (list str * list str) :=
  match own with
  | [] => Ok (l, comps)
  | (k, v) :: r =>
      if member k components then
        if member v vars then vector_names vars r (add_new v l) (comps ++ [v]) else Err ValueError
      else vector_names vars r l comps
  end.
(** Lines 283-285. *)
Definition out_of (b n : str) : str := n ++ "_"%char :: b.
(** Lines 265-299: all vectors; [roles] (269-281) is in PysatModel. *)
Fixpoint all_vectors (b : str) (vars : list str) (vecs : list (str * list (str * str))) (l outs : list str) (attrs : list (str * list str))
  : res (list str * list str * list (str * list str)) :=
  match vecs with
  | [] => Ok (l, outs, attrs)
  | (n, own) :: r =>
      '(l', comps) <- vector_names vars own l [] ;;
      all_vectors b vars r l' (add_new (out_of b n) outs) (match comps with [] => attrs | _ => attrs ++ [(out_of b n, comps)] end)
  end.
(** Lines 240-313: the variables needed, the outputs, and the components of the vectors.
    Every error is a ValueError, so that the order of the tests is of no account. *)
Definition collect_names (b : str) (vars : list str) (mlat mlt : str) (evar curl : list str) (vecs : list (str * list (str * str))) (scal : list (str * option scaling))
  : res (list str * list str * list (str * list str)) :=
  '(l, outs, attrs) <- all_vectors b vars vecs (add_vars vars curl (add_vars vars evar [mlat; mlt])) [out_of b mlat; out_of b mlt; out_of b (s2l "r_corr")] [] ;;
  '(_, evar', curl') <- roles evar curl scal ;;
  Ok (l, outs ++ map (out_of b) evar' ++ map (out_of b) curl', attrs).

(** ** The period loaded *)
(** Lines 174-175. *)
Definition load_window (index : list Z) (max_sdiff : Z) : res (Z * Z) :=
  match index with
  | [] => Err IndexError
  | t0 :: _ => Ok (t0 - (max_sdiff + 1) * 1000000, last index t0 + (max_sdiff + 1) * 1000000)
  end.
(** All that is known of a record. *)
Definition record_at {F K} (d : loaded F K) (r : Z) :=
  (nth_error (l_dtime d) (Z.to_nat r), nth_error (l_rfunc d) (Z.to_nat r), nth_error (l_kwargs d) (Z.to_nat r),
   map (fun p => (fst p, nth_error (snd p) (Z.to_nat r))) (l_attrs d)).
Definition record (F K : Type) : Type := option Z * option (corr F) * option K * list (string * option val).
(** Lines 171-205 and 321-550 for a pandas instrument and one boundary read from a table
    [file]; the values written for a sample are a function of the record used and the sample. *)
Section Output.
Context {F K V : Type} (conv : record F K -> Z -> V) (num_of : val -> num) (mn0 mx0 : num).
Definition output_with (d : loaded F K) (hemisphere : num) (rows : list (Z * (num * list num))) (max_sdiff : Z) (mn mx : option num) (ks : list crit) :=
  pandas_output (fun r s => conv (record_at d r) s) false (as_boundary num_of mn0 mx0 d) hemisphere rows max_sdiff mn mx ks.
Definition output_from_file (cols : list string) (fmt : str) (inst : option string) (noargs : K) (file : list (list cell))
  (hemisphere : num) (rows : list (Z * (num * list num))) (max_sdiff : Z) (mn mx : option num) (ks : list crit) : res (option (list (option V))) :=
  '(s, e) <- load_window (map fst rows) max_sdiff ;;
  ld <- load cols fmt (Some s) (Some e) inst GNone GNone noargs file ;;
  match ld with
  | None => Ok None
  | Some d => output_with d hemisphere rows max_sdiff mn mx ks
  end.
End Output.
