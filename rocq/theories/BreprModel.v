(** Model of the texts of boundary objects, ocbpy/_boundary.py:
    [OCBoundary.__repr__] (195-234), which EABoundary inherits, its evaluation, and
    [OCBoundary.__str__] (236-286).

    [repr] is modelled by the arguments its text names, and evaluating it by the call of
    the constructor with them.  The text of a correction function is its module and name,
    that of a dictionary its [repr]; reading them back is a parameter.  [str] is modelled
    by its lines with the values shown in them; the formats of numbers and times are left
    out.  The boundary is the object after construction. *)
From Coq Require Import String Ascii Reals ZArith List Bool.
From Flocq Require Import Core.Generic_fmt Core.Round_NE.
From Verif Require Import PyBase PyString RangeModel CoordModel CycleModel LoadModel.
Import ListNotations.
Open Scope string_scope.
Open Scope list_scope.

(** The text of an argument: None, one expression, or a numpy array of expressions. *)
Inductive shown := SNone | SOne (s : string) | SArray (l : list string).
(** _boundary.py:210-214 and 222-226: one expression if all are equal.  [len(set(l))]. *)
Definition summarise (l : list string) : shown :=
  if (length (nodup string_dec l) =? 1)%nat then SOne (hd "" l) else SArray l.

(** "{:f}": the nearest number with six decimals. *)
Definition fixed6 (x : R) : R := (IZR (ZnearestE (x * 1000000)) / 1000000)%R.

(** The call that the text is. *)
Record call := mkCall { c_file : option string; c_inst : option string; c_hemi : Z; c_lat : R;
                        c_stime : option Z; c_etime : option Z; c_rf : shown; c_kw : shown }.

Section Texts.
Context {F K : Type}.
(** Module and name of a correction function. *)
Context (fmod fnam : corr F -> string).
(** [repr] of a dictionary, and of its keys. *)
Context (ktext : K -> string) (kkeys : K -> list string).
Definition ftext (f : corr F) : string := (fmod f ++ "." ++ fnam f)%string.

(** _boundary.py:195-234. *)
Definition repr_call (b : obj F K) : res call :=
  t <- (match o_data b with
        | Some d => s <- getE (l_dtime d) 0 ;; e <- getE (l_dtime d) (-1) ;; Ok (Some s, Some e)
        | None => Ok (None, None)
        end) ;;
  rf <- (match o_data b with
         | Some d => Ok (summarise (map ftext (l_rfunc d)))
         | None => match o_rf b with
                   | GNone => Ok SNone
                   | GArray l => Ok (summarise (map ftext l))
                   | _ => Err TypeError
                   end
         end) ;;
  kw <- (match o_data b with
         | Some d => Ok (summarise (map ktext (l_kwargs d)))
         | None => match o_kw b with
                   | GNone => Ok SNone
                   | GArray l => Ok (summarise (map ktext l))
                   | GOne k => Ok (summarise (kkeys k))
                   | GOther => Err TypeError
                   end
         end) ;;
  Ok (mkCall (o_file b) (o_inst b) (o_hemi b) (fixed6 (o_lat b)) (fst t) (snd t) rf kw).

(** Evaluating the text. *)
Context (feval : string -> res (corr F)) (keval : string -> res K).
Definition eval_shown {A} (ev : string -> res A) (s : shown) : res (given A) :=
  match s with
  | SNone => Ok GNone
  | SOne t => a <- ev t ;; Ok (GOne a)
  | SArray l => r <- mapE ev l ;; Ok (GArray r)
  end.
Definition name_arg (f : option string) : fname := match f with None => FNone | Some s => FName s end.
(** The class is part of the text (197). *)
Inductive cls := OCB | EAB.
Definition init (c : cls) : files -> fname -> option string -> Z -> option R -> option Z -> option Z ->
  given (corr F) -> given K -> K -> res (obj F K) :=
  match c with OCB => init_ocb | EAB => init_eab end.
Definition eval_call (k : cls) (fs : files) (noargs : K) (c : call) : res (obj F K) :=
  rf <- eval_shown feval (c_rf c) ;;
  kw <- eval_shown keval (c_kw c) ;;
  init k fs (name_arg (c_file c)) (c_inst c) (c_hemi c) (Some (c_lat c)) (c_stime c) (c_etime c) rf kw noargs.

(** ** [__str__] *)
Inductive line :=
| LNoFile | LFile (s : string) | LInst (s : string) | LLat (x : R) | LNoData
| LPeriod (n t0 t1 : Z) | LHead | LRecord (t : Z) (phi rc r : val) | LUses | LFunc (f k : string).

(** [list(set(l))]: the order of a set is arbitrary. *)
Context (order : list string -> list string).

(** [s.split(".")[-1]]. *)
Fixpoint last_part (s : string) : string :=
  match s with
  | EmptyString => EmptyString
  | String c t => if has_sub "." s then last_part t else s
  end.

(** _boundary.py:257-261: [np.unique(np.arange(0, n, 1)[[0, 1, -2, -1]])]. *)
Definition insert_nat (x : nat) (l : list nat) : list nat :=
  (fix go (l : list nat) := match l with
     | [] => [x]
     | y :: r => if (x <? y)%nat then x :: y :: r else if (x =? y)%nat then y :: r else y :: go r
     end) l.
Definition unique (l : list nat) : list nat := fold_right insert_nat [] l.
Definition records_shown (n : nat) : res (list nat) :=
  if (n =? 1)%nat then Ok [0%nat]
  else l <- mapE (getE (seq 0 n)) [0; 1; -2; -1]%Z ;; Ok (unique l).

(** An attribute that was not loaded is None and cannot be subscripted. *)
Definition attr (d : loaded F K) (n : string) (i : nat) : res val :=
  match assoc n (l_attrs d) with Some l => getE l (Z.of_nat i) | None => Err TypeError end.
Definition record_line (d : loaded F K) (i : nat) : res line :=
  t <- getE (l_dtime d) (Z.of_nat i) ;;
  phi <- attr d "phi_cent" i ;; rc <- attr d "r_cent" i ;; r <- attr d "r" i ;;
  Ok (LRecord t phi rc r).
(** _boundary.py:273-284. *)
Definition kwargs_for (d : loaded F K) (ff : string) : res (list string) :=
  l <- mapE (fun x => let '(i, f) := x in
                      if String.eqb (fnam f) (last_part ff) then k <- getE (l_kwargs d) (Z.of_nat i) ;; Ok [ktext k] else Ok [])
            (combine (seq 0 (length (l_rfunc d))) (l_rfunc d)) ;;
  Ok (order (concat l)).
Definition func_lines (d : loaded F K) : res (list line) :=
  l <- mapE (fun ff => ks <- kwargs_for d ff ;; Ok (map (LFunc ff) ks)) (order (map ftext (l_rfunc d))) ;;
  Ok (concat l).
(** _boundary.py:236-286, [records] being 0 when nothing is loaded. *)
Definition str_lines (b : obj F K) : res (list line) :=
  match o_file b with
  | None => Ok [LNoFile]
  | Some n =>
      i <- (match o_inst b with Some i => Ok i | None => Err AttributeError end) ;;
      let head := [LFile n; LInst i; LLat (o_lat b)] in
      match o_data b with
      | None => Ok (head ++ [LNoData])
      | Some d =>
          if (l_records d =? 0)%Z then Ok (head ++ [LNoData])
          else
            t0 <- getE (l_dtime d) 0 ;; t1 <- getE (l_dtime d) (-1) ;;
            is <- records_shown (Z.to_nat (l_records d)) ;;
            rs <- mapE (record_line d) is ;;
            fs <- func_lines d ;;
            Ok (head ++ [LPeriod (l_records d) t0 t1; LHead] ++ rs ++ [LUses] ++ fs)
      end
  end.
End Texts.
