(** Model of ocbpy/instruments/vort.py: [load_vorticity_ascii_data] (216-363).

    A file is the list of its lines; the current line [vline] and its words [vsplit] are
    those of the head of the list, and the end of the list is the end of the file (where
    [readline] returns '').  [float] on text is the parameter [pf], and [secs] is
    [np.floor(hh * 3600.0)] as a number of seconds accepted by [timedelta] (an error for
    NaN and infinities; FvortModel.v has it in binary64).  The wanted keys of a line are read in the order of the line (the
    code runs through a set: the order shows only in which of two bad words is named in
    the message of the ValueError). *)
From Coq Require Import String Ascii ZArith List Bool.
From Verif Require Import PyBase PyString TimeModel FilesModel SmagModel.
Import ListNotations.
Open Scope string_scope.
Open Scope list_scope.
Open Scope Z_scope.

(** Lines 243-252. *)
Definition vort_keys (save_all : bool) : list str :=
  map s2l (["YEAR"; "MONTH"; "DAY"; "UTH"; "VORTICITY"; "MLT"; "CENTRE_MLAT"; "DATETIME"]
    ++ if save_all then
         ["R1BM1"; "R1BM2"; "R2BM1"; "R2BM2"; "AREA"; "CENTRE_GLAT"; "CENTRE_GLON"; "C1_GLAT"; "C1_GLON"; "C2_GLAT"; "C2_GLON"; "C3_GLAT"; "C3_GLON";
          "C4_GLAT"; "C4_GLON"; "CENTRE_MLON"; "C1_MLAT"; "C1_MLON"; "C2_MLAT"; "C2_MLON"; "C3_MLAT"; "C3_MLON"; "C4_MLAT"; "C4_MLON"]
       else []).
(** Lines 257-264. *)
Definition bkeys : list (list str) :=
  map (map s2l)
    [["R1BM1"; "R1BM2"; "R2BM1"; "R2BM2"; "AREA"; "VORTICITY"; "MLT"];
     ["GFLG"; "CENTRE_GLAT"; "CENTRE_GLON"; "C1_GLAT"; "C1_GLON"; "C2_GLAT"; "C2_GLON"; "C3_GLAT"; "C3_GLON"; "C4_GLAT"; "C4_GLON"];
     ["MFLG"; "CENTRE_MLAT"; "CENTRE_MLON"; "C1_MLAT"; "C1_MLON"; "C2_MLAT"; "C2_MLON"; "C3_MLAT"; "C3_MLON"; "C4_MLAT"; "C4_MLON"]].
(** Lines 267-274: the header. *)
Fixpoint skip_header (lines : list str) : list str :=
  match lines with
  | [] => []
  | l :: r => match words [] l with w :: _ => if str_eqb w (s2l "#") then skip_header r else lines | [] => lines end
  end.

Section Float.
Context {V : Type} (pf : str -> res V) (secs : V -> res Z).
(** The fields of the date line: [yy], [mm], [dd], [hh], [dtime]. *)
Record stamp := mkStamp { s_yy : Z; s_mm : Z; s_dd : Z; s_hh : V; s_time : Z }.
(** Lines 280-300: a date line. *)
Definition vdate_line (ws : list str) : res stamp :=
  match ws with
  | [wy; wm; wd; wh] =>
      yy <- py_int wy ;; mm <- py_int wm ;; dd <- py_int wd ;; hh <- pf wh ;;
      day <- sp_time (strptime (wy ++ " "%char :: wm ++ " "%char :: wd) "%Y %m %d") ;;
      sc <- secs hh ;;
      t <- add_us day (sc * 1000000) ;;
      Ok (mkStamp yy mm dd hh t)
  | _ => Err IOError
  end.
(** Lines 301-315: the number of entries. *)
Definition count_line (ws : list str) : res Z :=
  match ws with [w] => py_int w | _ => Err IOError end.
(** Lines 338-343: the wanted values of a line. *)
Fixpoint save_keys (wanted : list str) (kws : list (str * str)) (t : table V) : res (table V) :=
  match kws with
  | [] => Ok t
  | (k, w) :: r =>
      if member k wanted then (v <- pf w ;; t' <- append k (CF v) t ;; save_keys wanted r t')
      else save_keys wanted r t
  end.
(** Lines 327-347: the lines of one entry. *)
Fixpoint entry_lines (wanted : list str) (bks : list (list str)) (lines : list str) (t : table V) : res (table V * list str) :=
  match bks with
  | [] => Ok (t, lines)
  | bk :: r =>
      let ws := match lines with [] => [] | l :: _ => words [] l end in
      if negb (length ws =? length bk)%nat then Err IOError
      else (t' <- save_keys wanted (combine bk ws) t ;; entry_lines wanted r (tl lines) t')
  end.
(** Lines 317-351: the entries of one block. *)
Fixpoint entries (wanted : list str) (n : nat) (st : stamp) (lines : list str) (t : table V) : res (table V * list str) :=
  match n with
  | O => Ok (t, lines)
  | S n' =>
      t1 <- appends [(s2l "YEAR", CZ (s_yy st)); (s2l "MONTH", CZ (s_mm st)); (s2l "DAY", CZ (s_dd st)); (s2l "UTH", CF (s_hh st)); (s2l "DATETIME", CT (s_time st))] t ;;
      p <- entry_lines wanted bkeys lines t1 ;;
      entries wanted n' st (snd p) (fst p)
  end.
(** Lines 276-354: the loop; what is expected next is [vinc]. *)
Inductive expect := Date | Count (st : stamp) | Entries (st : stamp) (n : Z).
Fixpoint vort_loop (wanted : list str) (fuel : nat) (x : expect) (lines : list str) (t : table V) : res (table V) :=
  match lines with
  | [] => Ok t
  | l :: r =>
      match fuel with
      | O => Err OutOfFuel
      | S f =>
          match x with
          | Date => st <- vdate_line (words [] l) ;; vort_loop wanted f (Count st) r t
          | Count st => n <- count_line (words [] l) ;; vort_loop wanted f (Entries st n) r t
          | Entries st n => p <- entries wanted (Z.to_nat n) st lines t ;; vort_loop wanted f Date (snd p) (fst p)
          end
      end
  end.
(** Lines 236-363: [None] when the file is refused or some column is empty. *)
Definition load_vort (isfile : bool) (size : Z) (save_all : bool) (lines : list str) : res (option (table V)) :=
  if negb (test_file isfile size) then Ok None
  else
    let wanted := vort_keys save_all in
    let body := skip_header lines in
    t <- vort_loop wanted (2 * length body) Date body (map (fun k => (k, [])) wanted) ;;
    if forallb (fun p => match snd p with [] => false | _ => true end) t then Ok (Some t) else Ok None.
End Float.
