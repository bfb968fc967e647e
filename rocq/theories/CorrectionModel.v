(** Model of ocbpy/ocb_correction.py: [circular] (25-46), [elliptical] (49-86) and
    [harmonic] (89-164).  The functions act on each element of an array of MLTs
    (C15 for [hr2rad]); the model is the action on one element.  Floats are reals
    or NaN; the decimal coefficients are taken as exact. *)
From Coq Require Import String Reals ZArith List Bool.
From Verif Require Import PyBase PyString RangeModel.
Import ListNotations.
Open Scope R_scope.

(** ocb_correction.py:25-46. *)
Definition circular (mlt : fl) (r_add : R) : fl := Some r_add.

(** ocb_correction.py:75-76. *)
Record ellipse := mkEllipse { el_a : R; el_e : R; el_t : R }.
Definition ellipse_coeff : list (string * ellipse) :=
  [("median", mkEllipse 4.01 0.55 (-0.92)); ("gaussian", mkEllipse 4.41 0.51 (-0.95))]%string.

(** ocb_correction.py:71-86.  The denominator is never zero (C57), so no special case
    of the division is modelled. *)
Definition elliptical (mlt : fl) (instrument method : string) : res fl :=
  if negb (String.eqb (lower instrument) "ampere") then Err ValueError
  else match assoc (lower method) ellipse_coeff with
       | None => Err ValueError
       | Some c =>
           th <- hr2rad mlt (2 * PI) ;;
           Ok (fmap (fun t => - (el_a c * (1 - el_e c ^ 2) / (1 + el_e c * cos (t - el_t c)))) th)
       end.

(** ocb_correction.py:114-139. *)
Definition harmonic_coeff : list (string * list (string * list R)) :=
  [("ampere",
    [("median", [3.31000535; -0.5452934; -1.24389141; 2.42619653; -0.66677988; -1.03467488;
                 -0.30763009; 0.52426756; 0.04359299; 0.60201848; 0.50618522; 1.04360529; 0.25186405]);
     ("gaussian", [3.80100827; 0.98555723; -3.43760943; 1.85084271; -0.36730751; -0.81975654;
                   -1.02823832; 1.30637288; -0.53599218; 0.40380183; -1.22462708; -1.2733629; -0.62743381])]);
   ("si12",
    [("ocb", [0.0405; -1.5078; 1; 0.5095; 1; 0.9371; 1; 0.0708; 1; 0; 1; 0; 1]);
     ("eab", [-0.1447; -1.9779; 1; 2.6799; 1; 0.5778; 1; -1.2297; 1; 0; 1; 0; 1])]);
   ("si13",
    [("ocb", [0.5797; -0.6837; 1; -0.5020; 1; 0.2971; 1; -0.4173; 1; 0; 1; 0; 1]);
     ("eab", [0.2500; -2.9931; 1; 0.8818; 1; 0.8511; 1; -0.6300; 1; 0; 1; 0; 1])]);
   ("wic",
    [("ocb", [1.0298; -1.1249; 1; -0.7380; 1; 0.1838; 1; -0.6171; 1; 0; 1; 0; 1]);
     ("eab", [-0.4935; -2.1186; 1; 0.3188; 1; 0.5749; 1; -0.3118; 1; 0; 1; 0; 1])])]%string.

(** [coeff[inst][method][i]]; every table has 13 entries, so no IndexError. *)
Definition coef (c : list R) (i : nat) : R := nth i c 0.

(** ocb_correction.py:142-164. *)
Definition harmonic (mlt : fl) (instrument method : string) : res fl :=
  match assoc (lower instrument) harmonic_coeff with
  | None => Err ValueError
  | Some tables =>
      match assoc (lower method) tables with
      | None => Err ValueError
      | Some c =>
          th <- hr2rad mlt (2 * PI) ;;
          Ok (fmap (fun t =>
                - (coef c 0 + coef c 1 * cos (t + coef c 2) + coef c 3 * sin (t + coef c 4)
                   + coef c 5 * cos (2 * (t + coef c 6)) + coef c 7 * sin (2 * (t + coef c 8))
                   + coef c 9 * cos (3 * (t + coef c 10)) + coef c 11 * sin (3 * (t + coef c 12)))) th)
      end
  end.
