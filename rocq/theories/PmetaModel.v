(** Model of ocbpy/instruments/pysat_instruments.py: [add_ocb_to_metadata] (630-716) and its calls
    by [add_ocb_to_data] (544-585).

    The metadata of an instrument are the entries of its variables, by name; an entry has a
    value for each label.  Setting an entry (pysat) changes the labels given; the others keep
    the values they had, or get those of a new entry ([fresh]).  Simplifications: names are
    equal only if written the same way; the test of the class of the instrument (670-671) is
    left out; [bound_desc] is a function. *)
From Coq Require Import String Ascii ZArith List Bool.
From Verif Require Import PyBase TimeModel FilesModel SmagModel PysatModel.
Import ListNotations.
Open Scope string_scope.
Open Scope list_scope.

Inductive label := LName | LDesc | LUnits | LMin | LMax | LFill | LNotes | LOther (s : str).
Inductive mval := VNan | VLow | VHigh | VText (s : str) | VOther (n : Z).
Definition label_eqb (a b : label) : bool :=
  match a, b with
  | LName, LName | LDesc, LDesc | LUnits, LUnits | LMin, LMin | LMax, LMax | LFill, LFill | LNotes, LNotes => true
  | LOther s, LOther t => str_eqb s t
  | _, _ => false
  end.
Definition mentry := label -> mval.
Definition meta := list (str * mentry).
(** [meta[name] = new]. *)
Fixpoint given (new : list (label * mval)) (l : label) : option mval :=
  match new with [] => None | (k, v) :: r => if label_eqb l k then Some v else given r l end.
Definition set_entry (fresh : mentry) (m : meta) (name : str) (new : list (label * mval)) : meta :=
  let old := match lookup name m with Some e => e | None => fresh end in
  setkey name (fun l => match given new l with Some v => v | None => old l end) m.
(** Lines 656-665: the boundary named by the output name. *)
Definition bound_desc (b : str) : str :=
  if str_eqb b "ocb" then "Open Closed field-line Boundary" else if str_eqb b "eab" then "Equatorward Auroral Boundary" else if str_eqb b "dualb" then "Dual Boundary" else [].
Definition bounds : list str := map s2l ["ocb"; "eab"; "dualb"].
Fixpoint first_bound (ps : list str) : str :=
  match ps with [] => [] | p :: r => if member p bounds then p else first_bound r end.
Definition bound_of (name : str) : str := first_bound (split "_" name).
(** Lines 667, 678-679 and 688-689. *)
Definition new_name (name : str) : str :=
  let b := bound_of name in
  replace ((if (length b =? 0)%nat then [] else upper b ++ s2l "_") ++ before ("_"%char :: b) name) "_" " ".
(** [name.replace(b, d)]; for an empty [b] (682-683) nothing is replaced, [d] being empty. *)
Definition replaced_by (s b d : str) : str := match b with [] => s | _ => replace s b d end.
(** ["".join([..., v])]. *)
Definition joined_text (pre : str) (v : mval) : res mval := match v with VText s => Ok (VText (pre ++ s)) | _ => Err TypeError end.
(** Lines 673-716; [columns] are the labels of the metadata (702). *)
Definition add_meta (fresh : mentry) (columns : list label) (m : meta) (ocb_name pysat_name : str) (overwrite : bool) (notes : str) (isvector : bool) : res meta :=
  let b := bound_of ocb_name in
  if negb overwrite && match lookup ocb_name m with Some _ => true | None => false end then Ok m else
  new <- match lookup pysat_name m with
         | None =>
             Ok [(LFill, VNan); (LName, VText (new_name ocb_name)); (LDesc, VText (replaced_by (new_name ocb_name) (upper b) (bound_desc b))); (LMin, VLow); (LMax, VHigh)]
         | Some e =>
             if isvector then
               d <- joined_text (bound_desc b) (e LDesc) ;;
               Ok [(LFill, VNan); (LName, VText (new_name ocb_name)); (LDesc, d); (LUnits, e LUnits); (LMin, e LMin); (LMax, e LMax)]
             else
               n <- joined_text (upper b ++ s2l " ") (e LName) ;;
               d <- joined_text (bound_desc b) (e LDesc) ;;
               Ok ((LFill, VNan) :: (LName, n) :: (LDesc, d) :: map (fun l => (l, e l)) columns)
         end ;;
  Ok (set_entry fresh m ocb_name ((LNotes, VText notes) :: new)).

(** Lines 556-570: what is written about the boundary; instrument, file and boundary latitude
    (with two decimals), one or both boundaries. *)
Definition about := (str * str * str)%type.
Inductive source := One (a : about) | Both (ocb eab : about).
Definition notes_of (s : source) : str :=
  match s with
  | One (i, f, l) => s2l "Boundary obtained from " ++ i ++ s2l " data in file " ++ f ++ s2l "using a boundary latitude of " ++ l
  | Both (i, f, l) (i', f', l') =>
      s2l "OCB obtained from " ++ i ++ s2l " data" ++ s2l " in file " ++ f ++ s2l " using a " ++ s2l "boundary latitude of " ++ l ++ s2l " and EAB" ++
      s2l "EAB obtained from " ++ i' ++ s2l " data in file " ++ f' ++ s2l "using a " ++ s2l "boundary latitude of " ++ l'
  end.
(** Lines 554-583 for one output: [vecs] the scaling functions of the vectors by name ([None]
    if it is None), [comps] the variables of their components ([vector_attrs]). *)
Definition about_output (b : str) (s : source) (vecs : list (str * option str)) (comps : list (str * list str)) (oattr : str) : res (str * str * bool) :=
  let e := before ("_"%char :: b) oattr in
  match lookup e vecs with
  | None => Ok (e, notes_of s, false)
  | Some f =>
      match lookup (e ++ "_"%char :: b) comps with
      | None => Err KeyError
      | Some [] => Err IndexError
      | Some (c :: _) => Ok (c, notes_of s ++ s2l " and was scaled using " ++ match f with None => s2l "None" | Some f => f end, true)
      end
  end.
(** The loop over the outputs (545). *)
Fixpoint meta_all (fresh : mentry) (columns : list label) (b : str) (s : source) (vecs : list (str * option str)) (comps : list (str * list str)) (outs : list str) (m : meta) : res meta :=
  match outs with
  | [] => Ok m
  | o :: r =>
      '(p, notes, v) <- about_output b s vecs comps o ;;
      m' <- add_meta fresh columns m o p false notes v ;;
      meta_all fresh columns b s vecs comps r m'
  end.
