(** Model of the texts of DualBoundary objects: ocbpy/_boundary.py, [__repr__] lines 1130-1135 and
    [__str__] lines 1137-1148.  [str] is modelled by its lines with the values shown in them, as
    in BreprModel; the formats of numbers and times are left out. *)
From Coq Require Import ZArith QArith List Bool.
From Verif Require Import PyBase CycleModel DualModel.
Import ListNotations.
Open Scope Z_scope.

(** A line: the title, the number of pairs without or with their period, the largest time
    difference, an empty line, or a line [L] of the text of one of the two boundaries. *)
Inductive dline (L : Type) :=
| DTitle | DNone (n : Z) | DPairs (n t0 t1 : Z) | DDelta (x : Z) | DBlank | DOf (l : L).
Arguments DTitle {L}. Arguments DNone {L} n. Arguments DPairs {L} n t0 t1.
Arguments DDelta {L} x. Arguments DBlank {L}. Arguments DOf {L} l.

(** _boundary.py:1137-1148.  [eab] and [ocb] are the texts of the two boundaries. *)
Definition dual_str {L} (eab ocb : res (list L)) (d : dual) : res (list (dline L)) :=
  pairs <- (if d_records d =? 0 then Ok (DNone (d_records d))
            else t0 <- getE (d_dtime d) 0 ;; t1 <- getE (d_dtime d) (-1) ;; Ok (DPairs (d_records d) t0 t1)) ;;
  e <- eab ;; o <- ocb ;;
  Ok ([DTitle; pairs; DDelta (d_max_delta d); DBlank] ++ map DOf e ++ map DOf o).

(** Evaluating [repr] (1130-1135): DualBoundary called with the two boundaries and the largest
    time difference, lines 1094-1128.  Both boundaries have the same hemisphere; [loaded] says
    whether both have times. *)
Definition dual_made (eab ocb : boundary) (loaded : bool) (max_delta : Z) : res dual :=
  if max_delta <=? 0 then Err ValueError
  else set_good_ind (mkD ocb eab loaded max_delta 0 [] [] [] None) None None [] None None [].
Definition dual_eval (d : dual) : res dual := dual_made (d_eab d) (d_ocb d) (d_loaded d) (d_max_delta d).
