(** Model of ocbpy/boundaries/files.py: [get_boundary_files] (39-107) and
    [get_default_file] (110-206), and of
    [evaluate_dmsp_boundary_file] (ocbpy/boundaries/dmsp_ssj_files.py:175-224).

    The boundary directory is a parameter: its path and the entries [os.listdir] returns,
    each with the answer of [os.path.isfile].  The current time is a parameter.  File names
    are strings of 8-bit characters; [str.lower] changes A to Z only.  Log messages are
    dropped. *)
From Coq Require Import String Ascii ZArith List Bool.
From Verif Require Import PyBase PyString TimeModel.
Import ListNotations.
Open Scope string_scope.
Open Scope list_scope.
Open Scope Z_scope.

(** ** Python string primitives *)
Fixpoint str_eqb (a b : str) : bool :=
  match a, b with
  | [], [] => true
  | x :: a', y :: b' => Ascii.eqb x y && str_eqb a' b'
  | _, _ => false
  end.
Definition lowers : str -> str := map lower_char.
(** [s.split(c)] for a single character. *)
Fixpoint split (c : ascii) (s : str) : list str :=
  match s with
  | [] => [[]]
  | a :: s' =>
      if Ascii.eqb a c then [] :: split c s'
      else match split c s' with [] => [[a]] | p :: t => (a :: p) :: t end
  end.
(** [s.split()]: the parts between runs of white space; [acc] is the part read so far, reversed. *)
Fixpoint words (acc : str) (s : str) : list str :=
  match s with
  | [] => match acc with [] => [] | _ => [rev acc] end
  | c :: t => if isspace c then match acc with [] => words [] t | _ => rev acc :: words [] t end else words (c :: acc) t
  end.
(** [s.split(sep)[0]] and [s.split(sep)[-1]] for a nonempty [sep]: the text before the first
    occurrence, and after the last of the occurrences found from the left. *)
Definition before (sep s : str) : str :=
  match find sep s with Some n => firstn n s | None => s end.
Fixpoint after_last (fuel : nat) (sep s : str) : str :=
  match fuel with
  | O => s
  | S k => match find sep s with
           | Some n => after_last k sep (skipn (n + length sep) s)
           | None => s
           end
  end.
(** [os.path.join(d, f)] for a directory [d] without final slash. *)
Definition join (d f : str) : str := d ++ s2l "/" ++ f.
Fixpoint lookup {A} (k : str) (l : list (str * A)) : option A :=
  match l with [] => None | (k', a) :: t => if str_eqb k k' then Some a else lookup k t end.
Definition member (k : str) (l : list str) : bool := existsb (str_eqb k) l.

(** ** get_boundary_files *)
(** Directory entry: name and [os.path.isfile]. *)
Definition entry := (str * bool)%type.
(** The dictionary of a file: instrument, hemisphere, and the keys [stime] and [etime] if
    they were set. *)
Record info := mkInfo { fi_inst : str; fi_hemi : Z; fi_stime : option Z; fi_etime : option Z }.

(** midnight of a day. *)
Definition day (y m d : Z) : Z := ordinal y m d * us_day.
(** files.py:64-77; [tomorrow] is the midnight after [datetime.today()]. *)
Definition spans (tomorrow : Z) : list (str * (Z * Z)) :=
  [(s2l "amp", (day 2010 1 1, day 2022 1 1));
   (s2l "si12", (day 2000 5 4, day 2002 11 1));
   (s2l "si13", (day 2000 5 3, day 2002 11 1));
   (s2l "wic", (day 2000 5 4, day 2002 11 1));
   (s2l "image", (day 2000 5 3, day 2002 11 1));
   (s2l "dmsp-ssj", (day 2010 1 1, tomorrow))].
(** files.py:63. *)
Definition hemi_of (w : str) : res Z :=
  if str_eqb w "north" then Ok 1 else if str_eqb w "south" then Ok (-1) else Err KeyError.
(** files.py:86-88. *)
Definition is_boundary (bound : str) (e : entry) : bool :=
  snd e && negb (contains ".py" (fst e)) && negb (contains "README" (fst e))
  && str_eqb (lowers (take_last 3 (fst e))) (lowers bound).
(** files.py:89-105.  A ValueError from [strptime] is logged; the key it was to set, and the
    later one, stay unset. *)
Definition file_info (tomorrow : Z) (name : str) : res info :=
  match split "_" (drop_last 4 (lowers name)) with
  | inst :: w :: rest =>
      h <- hemi_of w ;;
      match lookup inst (spans tomorrow) with
      | Some (s, e) => Ok (mkInfo inst h (Some s) (Some e))
      | None =>
          match rest with
          | [] => Err IndexError
          | a :: rest' =>
              match sp_time (strptime a "%Y%m%d") with
              | Err _ => Ok (mkInfo inst h None None)
              | Ok s =>
                  match rest' with
                  | [] => Err IndexError
                  | b :: _ =>
                      match sp_time (strptime b "%Y%m%d") with
                      | Err _ => Ok (mkInfo inst h (Some s) None)
                      | Ok e => Ok (mkInfo inst h (Some s) (Some e))
                      end
                  end
              end
          end
      end
  | _ => Err IndexError
  end.
(** files.py:79-107. *)
Fixpoint get_boundary_files (tomorrow : Z) (bound : str) (listing : list entry) : res (list (str * info)) :=
  match listing with
  | [] => Ok []
  | e :: t =>
      if is_boundary bound e then
        i <- file_info tomorrow (fst e) ;;
        r <- get_boundary_files tomorrow bound t ;;
        Ok ((fst e, i) :: r)
      else get_boundary_files tomorrow bound t
  end.

(** ** get_default_file *)
(** files.py:154-163. *)
Definition wanted (instrument : str) : list str :=
  match instrument with
  | [] => [s2l "amp"; s2l "image"; s2l "si12"; s2l "si13"; s2l "wic"; s2l "dmsp-ssj"]
  | _ =>
      if str_eqb instrument "ampere" then [s2l "amp"]
      else if str_eqb instrument "image" then [s2l "image"; s2l "si12"; s2l "si13"; s2l "wic"]
      else if str_eqb instrument "dmsp-ssj" then [s2l "dmsp-ssj"]
      else [instrument]
  end.
(** files.py:173-174, with the order of evaluation: a missing key raises KeyError. *)
Definition time_ok (stime etime : option Z) (i : info) : res bool :=
  match stime, etime with
  | Some s, Some e =>
      match fi_etime i with
      | None => Err KeyError
      | Some fe =>
          if s <=? fe then
            match fi_stime i with None => Err KeyError | Some fs => Ok (fs <=? e) end
          else Ok false
      end
  | _, _ => Ok true
  end.
(** files.py:165-175. *)
Fixpoint good_files (stime etime : option Z) (hemisphere : Z) (inst : list str)
  (files : list (str * info)) : res (list (str * info)) :=
  match files with
  | [] => Ok []
  | (n, i) :: t =>
      if (fi_hemi i =? hemisphere) && member (fi_inst i) inst then
        b <- time_ok stime etime i ;;
        r <- good_files stime etime hemisphere inst t ;;
        Ok (if b then (n, i) :: r else r)
      else good_files stime etime hemisphere inst t
  end.
(** files.py:178-179, 189-193, 201-204. *)
Definition long_name (inst : str) : str :=
  match lookup inst [(s2l "amp", s2l "ampere"); (s2l "si12", s2l "image"); (s2l "si13", s2l "image"); (s2l "wic", s2l "image")] with
  | Some l => l
  | None => inst
  end.
(** files.py:196-197: [default_inst.index]; ValueError if absent. *)
Definition order : list str := [s2l "image"; s2l "amp"; s2l "si13"; s2l "si12"; s2l "wic"; s2l "dmsp-ssj"].
Fixpoint index (k : str) (l : list str) : res nat :=
  match l with
  | [] => Err ValueError
  | a :: t => if str_eqb k a then Ok O else (n <- index k t ;; Ok (S n))
  end.
(** files.py:197-199: the dictionary from rank to file, later files replacing earlier ones,
    and its smallest key. *)
Fixpoint put {A} (k : nat) (v : A) (d : list (nat * A)) : list (nat * A) :=
  match d with
  | [] => [(k, v)]
  | (k', v') :: t => if (k =? k')%nat then (k, v) :: t else (k', v') :: put k v t
  end.
Fixpoint ranked (files : list (str * info)) (d : list (nat * (str * info))) : res (list (nat * (str * info))) :=
  match files with
  | [] => Ok d
  | f :: t => n <- index (fi_inst (snd f)) order ;; ranked t (put n f d)
  end.
Fixpoint smallest {A} (d : list (nat * A)) : option (nat * A) :=
  match d with
  | [] => None
  | p :: t => match smallest t with
              | Some q => if (fst q <? fst p)%nat then Some q else Some p
              | None => Some p
              end
  end.
(** files.py:110-206. *)
Definition get_default_file (dir : str) (listing : list entry) (tomorrow : Z) (stime etime : option Z)
  (hemisphere : Z) (instrument bound : str) : res (option str * str) :=
  files <- get_boundary_files tomorrow bound listing ;;
  good <- good_files stime etime hemisphere (wanted instrument) files ;;
  match good with
  | [] => Ok (None, instrument)
  | [(n, i)] => Ok (Some (join dir n), long_name (fi_inst i))
  | _ =>
      d <- ranked good [] ;;
      match smallest d with
      | None => Err ValueError  (* min of an empty dictionary *)
      | Some (_, (n, i)) => Ok (Some (join dir n), long_name (fi_inst i))
      end
  end.

(** ** evaluate_dmsp_boundary_file *)
(** dmsp_ssj_files.py:175-224; [now] is [datetime.utcnow()].  The tests of lines 213 and
    219-220 for None are dead: both times are set by then. *)
Definition evaluate_dmsp_boundary_file (now : Z) (fname : str) (stime etime : option Z) (sat_nums : list Z) : res bool :=
  let s := match stime with Some t => t | None => day 1900 1 1 end in
  let e := match etime with Some t => t | None => now end in
  sat <- py_int (before "_ssj" (after_last (length fname) "dmsp-f" fname)) ;;
  if existsb (Z.eqb sat) sat_nums then
    match nth_error (split "_" fname) 3 with
    | None => Err IndexError
    | Some p =>
        t <- sp_time (strptime p "%Y%m%d") ;;
        Ok ((s <=? t) && (t <? e))
    end
  else Ok false.
