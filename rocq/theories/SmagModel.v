(** Model of ocbpy/instruments/supermag.py: [load_supermag_ascii_data] (207-308), and of
    ocbpy/instruments/general.py: [test_file] (14-51).

    A file is the list of its lines.  [float] on text is the parameter [pf]; values are of
    an arbitrary type [V], and [nanfill] replaces the value 999999 by NaN.  Integers are
    read as by Python's [int] (no overflow of numpy integers). *)
From Coq Require Import String Ascii ZArith List Bool.
From Verif Require Import PyBase PyString TimeModel FilesModel.
Import ListNotations.
Open Scope string_scope.
Open Scope list_scope.
Open Scope Z_scope.

(** general.py:37-51: [isfile], then the size in bytes. *)
Definition test_file (isfile : bool) (size : Z) : bool :=
  if negb isfile then false
  else if 2000000000 <? size then false
  else if size =? 0 then false
  else true.

(** ** Dictionaries of lists *)
Inductive cell (V : Type) := CZ (z : Z) | CT (t : Z) | CS (s : str) | CF (v : V).
Arguments CZ {V}. Arguments CT {V}. Arguments CS {V}. Arguments CF {V}.
Definition table (V : Type) := list (str * list (cell V)).
(** [out[k].append(c)]. *)
Fixpoint append {V} (k : str) (c : cell V) (t : table V) : res (table V) :=
  match t with
  | [] => Err KeyError
  | (k', l) :: r => if str_eqb k k' then Ok ((k', l ++ [c]) :: r) else (r' <- append k c r ;; Ok ((k', l) :: r'))
  end.
Fixpoint appends {V} (kcs : list (str * cell V)) (t : table V) : res (table V) :=
  match kcs with [] => Ok t | (k, c) :: r => t' <- append k c t ;; appends r t' end.
(** [d[k] = v]. *)
Fixpoint setkey {A} (k : str) (v : A) (d : list (str * A)) : list (str * A) :=
  match d with
  | [] => [(k, v)]
  | (k', w) :: t => if str_eqb k k' then (k', v) :: t else (k', w) :: setkey k v t
  end.

(** ** load_supermag_ascii_data *)
(** Lines 228-232. *)
Definition smag_keys : list str :=
  map s2l ["YEAR"; "MONTH"; "DAY"; "HOUR"; "MIN"; "SEC"; "DATETIME"; "NST"; "SML"; "SMU"; "STID"; "BN"; "BE"; "BZ"; "MLT"; "MLAT"; "DEC"; "SZA"].
Definition fill_val : Z := 999999.
Definition no_index : list (str * Z) := [(s2l "SMU", fill_val); (s2l "SML", fill_val)].
Definition rule : str := s2l "=========================================".
(** The variables of the loop 239-289; [sm_date] holds the fields of [dtime]. *)
Record sm (V : Type) := mkSm {
  sm_head : list str; sm_hflag : bool; sm_n : Z; sm_date : list Z; sm_time : Z; sm_snum : Z; sm_ind : list (str * Z); sm_out : table V }.
Arguments mkSm {V}. Arguments sm_head {V}. Arguments sm_hflag {V}. Arguments sm_n {V}. Arguments sm_date {V}. Arguments sm_time {V}.
Arguments sm_snum {V}. Arguments sm_ind {V}. Arguments sm_out {V}.
Definition sm_start {V} : sm V := mkSm [] true (-1) [] 0 0 no_index (map (fun k => (k, [])) smag_keys).

Section Float.
Context {V : Type} (pf : str -> res V) (nanfill : V -> V).
(** [float(lsplit[i])]. *)
Definition fltE (l : list str) (i : Z) : res (cell V) := t <- getE l i ;; v <- pf t ;; Ok (CF v).
Fixpoint intsE (l : list str) : res (list Z) :=
  match l with [] => Ok [] | t :: r => z <- py_int t ;; zs <- intsE r ;; Ok (z :: zs) end.

(** Lines 249-255: a date line. *)
Definition date_line (s : sm V) (ws : list str) : res (sm V) :=
  l <- intsE ws ;;
  y <- getE l 0 ;; mo <- getE l 1 ;; d <- getE l 2 ;; h <- getE l 3 ;; mi <- getE l 4 ;; sc <- getE l 5 ;;
  t <- mk_datetime y mo d h mi sc 0 ;;
  snum <- getE l (-1) ;;
  Ok (mkSm (sm_head s) (sm_hflag s) 0 [y; mo; d; h; mi; sc] t snum (sm_ind s) (sm_out s)).
(** Lines 264-289: a station line. *)
Definition station_line (s : sm V) (ws : list str) : res (sm V) :=
  match sm_date s with
  | [y; mo; d; h; mi; sc] =>
      o1 <- appends [(s2l "YEAR", CZ y); (s2l "MONTH", CZ mo); (s2l "DAY", CZ d); (s2l "HOUR", CZ h); (s2l "MIN", CZ mi);
                     (s2l "SEC", CZ sc); (s2l "DATETIME", CT (sm_time s)); (s2l "NST", CZ (sm_snum s))] (sm_out s) ;;
      o2 <- appends (map (fun p => (fst p, CZ (snd p))) (sm_ind s)) o1 ;;
      id <- getE ws 0 ;; o3 <- append (s2l "STID") (CS id) o2 ;;
      bn <- fltE ws 1 ;; o4 <- append (s2l "BN") bn o3 ;;
      be <- fltE ws 2 ;; o5 <- append (s2l "BE") be o4 ;;
      bz <- fltE ws 3 ;; o6 <- append (s2l "BZ") bz o5 ;;
      mlt <- fltE ws 4 ;; o7 <- append (s2l "MLT") mlt o6 ;;
      mlat <- fltE ws 5 ;; o8 <- append (s2l "MLAT") mlat o7 ;;
      dec <- fltE ws 6 ;; o9 <- append (s2l "DEC") dec o8 ;;
      sza <- fltE ws 7 ;; o10 <- append (s2l "SZA") sza o9 ;;
      let n := sm_n s + 1 in
      if n =? sm_snum s then Ok (mkSm (sm_head s) (sm_hflag s) (-1) (sm_date s) (sm_time s) (sm_snum s) no_index o10)
      else Ok (mkSm (sm_head s) (sm_hflag s) n (sm_date s) (sm_time s) (sm_snum s) (sm_ind s) o10)
  | _ => Err NameError   (* dtime unset: does not arise, [sm_n] >= 0 only after a date line *)
  end.
(** Lines 242-289: one line of the file. *)
Definition smag_line (s : sm V) (line : str) : res (sm V) :=
  if sm_hflag s then
    Ok (mkSm (sm_head s ++ [line]) (negb (contains rule line)) (sm_n s) (sm_date s) (sm_time s) (sm_snum s) (sm_ind s) (sm_out s))
  else
    let ws := words [] line in
    if sm_n s <? 0 then date_line s ws
    else
      match ws with
      | [k; v] => z <- py_int v ;;
          Ok (mkSm (sm_head s) (sm_hflag s) (sm_n s) (sm_date s) (sm_time s) (sm_snum s) (setkey k z (sm_ind s)) (sm_out s))
      | _ => station_line s ws
      end.
Fixpoint smag_lines (s : sm V) (lines : list str) : res (sm V) :=
  match lines with [] => Ok s | l :: r => s' <- smag_line s l ;; smag_lines s' r end.
(** Lines 298-306: the fill value is replaced in the columns named.  An integer in one of
    these columns, from an index line with its name, is left alone. *)
Definition filled : list str := map s2l ["BE"; "BN"; "DEC"; "SZA"; "MLT"; "BZ"].
Definition replace_fill (t : table V) : table V :=
  map (fun p => (fst p, if member (fst p) filled then map (fun c => match c with CF v => CF (nanfill v) | _ => c end) (snd p) else snd p)) t.
(** Lines 234-308, the file as seen by [test_file] and its lines. *)
Definition load_supermag (isfile : bool) (size : Z) (lines : list str) : res (list str * table V) :=
  if negb (test_file isfile size) then Ok ([], [])
  else
    s <- smag_lines sm_start lines ;;
    if sm_hflag s then Ok (sm_head s, []) else Ok (sm_head s, replace_fill (sm_out s)).
End Float.
