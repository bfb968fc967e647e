(** Model of the texts of VectorData, ocbpy/ocb_scaling.py: [__repr__] (152-179), its
    evaluation by the constructor (106-150), and [__str__] (181-272).

    [repr] is modelled by the arguments its text names: the values of the attributes and
    the strings, in which "array" has been replaced.  What an array is when its text is
    read back is a parameter (numpy writes eight decimals, and NaN as a name).  [str] is
    modelled by its lines with the values shown in them; the formats of numbers and the
    padding are left out.  Attributes are those of VdataModel. *)
From Coq Require Import String Ascii Reals ZArith List Bool.
From Verif Require Import PyBase PyString RangeModel CoordModel DualCoordModel VectorModel ScalingModel LocModel VdataModel.
Import ListNotations.
Open Scope string_scope.
Open Scope list_scope.

(** ocb_scaling.py:177: [out.replace('array', 'numpy.array')].  No two occurrences of
    "array" overlap. *)
Fixpoint replaced (s : string) : string :=
  match s with
  | EmptyString => EmptyString
  | String c t => if prefix "array" s then ("numpy." ++ String c (replaced t))%string else String c (replaced t)
  end.

Section Texts.
(** Scaling functions and their text: module and name (155-160), and name (269-270). *)
Context {G : Type} (gtext gname : G -> string).
(** The attributes that are not in VdataModel. *)
Record labels := mkLabels { lb_name : option string; lb_units : option string; lb_loc : string; lb_vec : string; lb_func : option G }.

(** The call that the text is. *)
Record vcall := mkVcall {
  k_dat : av Z; k_ocb : av Z; k_lat : av fl; k_lt : av fl; k_h : av fl; k_loc : string;
  k_olat : av fl; k_omlt : av fl; k_rc : av fl; k_n : av fl; k_e : av fl; k_z : av fl; k_mag : av fl;
  k_vec : string; k_name : option string; k_units : option string; k_func : option string }.
(** ocb_scaling.py:152-179. *)
Definition vrepr (w : labels) (v : vdata) : vcall :=
  mkVcall (d_ind v) (o_ind v) (d_lat v) (d_lt v) (d_h v) (replaced (lb_loc w)) (o_lat v) (o_mlt v) (o_rc v)
    (d_n v) (d_e v) (d_z v) (d_mag v) (replaced (lb_vec w)) (option_map replaced (lb_name w)) (option_map replaced (lb_units w))
    (option_map (fun g => replaced (gtext g)) (lb_func w)).

(** ocb_scaling.py:106-150. *)
Definition vinit (dat ocb : av Z) (lat lt h : av fl) (loc : string) (olat omlt rc n e z mag : av fl) (vec : string)
  (name units : option string) (func : option G) : res (labels * vdata) :=
  v <- construct dat ocb lat lt h n e z mag olat omlt rc ;;
  c <- test_coords loc vec ;;
  Ok (mkLabels name units (fst c) (snd c) func, v).

(** Evaluating the text. *)
Context (geval : string -> res G) (readz : av Z -> res (av Z)) (reads : av fl -> res (av fl)).
Definition veval (c : vcall) : res (labels * vdata) :=
  dat <- readz (k_dat c) ;; ocb <- readz (k_ocb c) ;; lat <- reads (k_lat c) ;; lt <- reads (k_lt c) ;; h <- reads (k_h c) ;;
  olat <- reads (k_olat c) ;; omlt <- reads (k_omlt c) ;; rc <- reads (k_rc c) ;;
  n <- reads (k_n c) ;; e <- reads (k_e c) ;; z <- reads (k_z c) ;; mag <- reads (k_mag c) ;;
  f <- (match k_func c with None => Ok None | Some s => g <- geval s ;; Ok (Some g) end) ;;
  vinit dat ocb lat lt h (k_loc c) olat omlt rc n e z mag (k_vec c) (k_name c) (k_units c) f.

(** ** [__str__] *)
Inductive vline :=
| TTitle (name units : option string) | TIndex (d o : av Z) | TRule | TLocHead (indexed : bool)
| TLoc (c : string) (lat lt h : fl) (i : option Z) | TOcb (lat mlt : fl) (i : option Z) | TBlank
| TVecHead (indexed : bool) | TVec (c : string) (mag n e z : fl) (i : option Z) | TOcbVec (mag n e z : fl) (i : option Z)
| TFunc (f : option string).

(** A format other than "{:}" takes scalars only; an item or an iteration needs an array. *)
Definition fmt {A} (x : av A) : res A := match x with Sc a => Ok a | Ar _ => Err TypeError end.
Definition item {A} (x : av A) (i : nat) : res A := match x with Sc _ => Err IndexError | Ar l => getE l (Z.of_nat i) end.
Definition items {A} (x : av A) : res (list (nat * A)) :=
  match x with Sc _ => Err TypeError | Ar l => Ok (combine (seq 0 (List.length l)) l) end.

(** ocb_scaling.py:192-230. *)
Definition loc_lines (w : labels) (v : vdata) : res (list vline) :=
  if is_scalar (d_ind v) && is_scalar (o_ind v) then
    a <- fmt (d_lat v) ;; b <- fmt (d_lt v) ;; c <- fmt (d_h v) ;; x <- fmt (o_lat v) ;; y <- fmt (o_mlt v) ;;
    Ok [TLocHead false; TLoc (lb_loc w) a b c None; TOcb x y None]
  else if shape_eqb (shape_of (d_ind v)) (shape_of (o_ind v)) || is_scalar (o_ind v) then
    ds <- items (d_ind v) ;;
    ls <- mapE (fun p => let '(i, dind) := p in
      o <- (if match o_lat v with Sc q => isnan q | Ar _ => false end then oi <- fmt (o_ind v) ;; Ok (TOcb None None (Some oi))
            else x <- item (o_lat v) i ;; y <- item (o_mlt v) i ;;
                 oi <- (if is_scalar (o_ind v) then fmt (o_ind v) else item (o_ind v) i) ;; Ok (TOcb x y (Some oi))) ;;
      a <- item (d_lat v) i ;; b <- item (d_lt v) i ;; c <- item (d_h v) i ;;
      Ok [TLoc (lb_loc w) a b c (Some dind); o]) ds ;;
    Ok (TLocHead true :: concat ls)
  else
    a <- fmt (d_lat v) ;; b <- fmt (d_lt v) ;; c <- fmt (d_h v) ;; d <- fmt (d_ind v) ;;
    os <- items (o_ind v) ;;
    ls <- mapE (fun p => let '(i, oind) := p in
      x <- item (o_lat v) i ;; y <- item (o_mlt v) i ;; Ok [TOcb x y (Some oind); TBlank]) os ;;
    Ok (TLocHead true :: TLoc (lb_loc w) a b c (Some d) :: concat ls).

(** ocb_scaling.py:244-264: [vec_line] is kept from one turn of the loop to the next. *)
Fixpoint vec_loop (w : labels) (v : vdata) (ms : list (nat * fl)) (vec : list vline) : res (list vline) :=
  match ms with
  | [] => Ok []
  | (i, mag) :: r =>
      vec1 <- (if is_scalar (d_mag v) then
                 if (i =? 0)%nat then
                   m <- fmt (d_mag v) ;; a <- fmt (d_n v) ;; b <- fmt (d_e v) ;; c <- fmt (d_z v) ;; d <- fmt (d_ind v) ;;
                   Ok [TVec (lb_vec w) m a b c (Some d)]
                 else Ok vec
               else m <- item (d_mag v) i ;; a <- item (d_n v) i ;; b <- item (d_e v) i ;; c <- item (d_z v) i ;; d <- item (d_ind v) i ;;
                    Ok [TVec (lb_vec w) m a b c (Some d)]) ;;
      vec2 <- (if isnan mag then Ok vec1
               else a <- item (r_n (d_out v)) i ;; b <- item (r_e (d_out v)) i ;; c <- item (r_z (d_out v)) i ;;
                    o <- (if is_scalar (o_ind v) then fmt (o_ind v) else item (o_ind v) i) ;;
                    Ok (vec1 ++ [TOcbVec mag a b c (Some o)])) ;;
      rest <- vec_loop w v r vec2 ;;
      Ok (vec2 ++ rest)
  end.
(** ocb_scaling.py:233-264. *)
Definition vec_lines (w : labels) (v : vdata) : res (list vline) :=
  match d_mag v, r_mag (d_out v) with
  | Sc m, Sc om =>
      a <- fmt (d_n v) ;; b <- fmt (d_e v) ;; c <- fmt (d_z v) ;;
      o <- (if isnan om then Ok []
            else x <- fmt (r_n (d_out v)) ;; y <- fmt (r_e (d_out v)) ;; z <- fmt (r_z (d_out v)) ;; Ok [TOcbVec om x y z None]) ;;
      Ok ([TVecHead false; TVec (lb_vec w) m a b c None] ++ o)
  | _, rm =>
      ms <- items rm ;;
      ls <- vec_loop w v ms [] ;;
      Ok (TVecHead true :: ls)
  end.
(** ocb_scaling.py:181-272. *)
Definition vstr (w : labels) (v : vdata) : res (list vline) :=
  ls <- loc_lines w v ;;
  vs <- vec_lines w v ;;
  Ok ([TTitle (lb_name w) (lb_units w); TIndex (d_ind v) (o_ind v); TRule] ++ ls ++ [TRule] ++ vs ++ [TRule]
      ++ match lb_func w with None => [TFunc None] | Some g => [TFunc (Some (gname g)); TBlank] end).
End Texts.
