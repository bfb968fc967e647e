(** Model of the text of boundary files, read and written:
    ocbpy/_boundary.py: the call of [np.genfromtxt] in [OCBoundary.load] (359-381), so that
    [load_text] goes from the lines of a file to the loaded records (LoadModel has the rest);
    ocbpy/boundaries/dmsp_ssj_files.py: [format_ssj_boundary_files] (283-431) from the lines of
    the input files to the lines of the output files.

    A file is the list of its lines, each with its newline or without.  [float] on text is
    the parameter [pf]; the conversion of AACGM coordinates is the parameter [aacgm], which
    gives magnetic latitude and local time of a latitude, longitude and time.  Values of the
    input files are [num]; the geometry is over the reals.  Years are written with four
    digits (glibc writes years before 1000 with fewer). *)
From Coq Require Import String Ascii Reals ZArith QArith Qreals List Bool.
From Flocq Require Import Core.
From Verif Require Import PyBase PyString TimeModel CycleModel RangeModel CoordModel FilesModel LoadModel GeneralModel OutputModel DmspModel.
Import ListNotations.
Open Scope string_scope.
Open Scope list_scope.
Open Scope Z_scope.

(** ** Reading a boundary file *)
Inductive ctype := TFloat | TInt | TText.
(** _boundary.py:361-370: the types of the columns. *)
Definition type_of (flag : bool) (name : string) : ctype :=
  if String.eqb name "num_sectors" then TInt
  else if flag then (if String.eqb name "year" then TInt else TFloat)
  else if String.eqb name "date" || String.eqb name "time" then TText else TFloat.
(** A value as genfromtxt converts it: 50 characters of a text; -1 and NaN for what cannot be
    read.  (Integers of more than 64 bits are not modelled.) *)
Definition read_cell (pf : str -> res num) (t : ctype) (w : str) : LoadModel.cell :=
  match t with
  | TText => CStr (firstn 50 w)
  | TInt => CInt (match py_int w with Ok z => z | Err _ => -1 end)
  | TFloat => CFlt (match pf w with Ok x => x | Err _ => NaN end)
  end.
Fixpoint read_row (pf : str -> res num) (ts : list ctype) (ws : list str) : list LoadModel.cell :=
  match ts, ws with t :: ts', w :: ws' => read_cell pf t w :: read_row pf ts' ws' | _, _ => [] end.
Fixpoint distinct (l : list string) : bool := match l with [] => true | a :: r => negb (str_in a r) && distinct r end.
(** _boundary.py:377-378: the lines after the header, cut at a hash and split at blanks; empty
    ones are skipped.  All rows need as many words as the first, which needs one for each
    column; further words are dropped.  numpy rejects column names given twice. *)
Definition read_table (pf : str -> res num) (flag : bool) (hlines : nat) (cols : list string) (lines : list str) : res (list (list LoadModel.cell)) :=
  if negb (distinct cols) then Err ValueError
  else
    let rows := filter (fun r => match r with [] => false | _ => true end) (map (fun l => words [] (before (s2l "#") l)) (skipn hlines lines)) in
    match rows with
    | [] => Ok []
    | r0 :: _ =>
        if forallb (fun r => (length r =? length r0)%nat) rows && (length cols <=? length r0)%nat
        then Ok (map (read_row pf (map (type_of flag) cols)) rows) else Err ValueError
    end.
(** _boundary.py:328-451 on the lines of the file. *)
Definition load_text {F K} (pf : str -> res num) (hlines : nat) (cols : list string) (fmt : str) (stime etime : option Z) (inst : option string)
  (rf : given (corr F)) (kw : given K) (noargs : K) (lines : list str) : res (option (LoadModel.loaded F K)) :=
  match time_flag cols with
  | None => Ok None
  | Some flag => rows <- read_table pf flag hlines cols lines ;; load cols fmt stime etime inst rf kw noargs rows
  end.

(** ** The input files of format_ssj_boundary_files *)
(** Lines 345-350: the header line and the lines after it. *)
Fixpoint header_of (lines : list str) : str * list str :=
  match lines with
  | [] => ([], [])
  | l :: r => match l with c :: _ => if Ascii.eqb c "#" then header_of r else (l, r) | [] => (l, r) end
  end.
(** Line 352. *)
Definition names_of_header (l : str) : list str := split "," (upto newline l).
(** Lines 354-355, [np.loadtxt]: lines are cut at a hash and freed of their ends; empty ones are
    skipped, the others split at commas.  Blanks around a number are dropped. *)
Definition is_end (c : ascii) : bool := Ascii.eqb c newline || Ascii.eqb c (ascii_of_nat 13).
Definition trim_ends (s : str) : str := rev (drop_while is_end (rev (drop_while is_end s))).
Definition fields (l : str) : list str := match trim_ends (before (s2l "#") l) with [] => [] | s => split "," s end.
Definition loadtxt (pf : str -> res num) (lines : list str) : res (list (list num)) :=
  let rows := filter (fun r => match r with [] => false | _ => true end) (map fields lines) in
  match rows with
  | [] => Ok []
  | r0 :: _ =>
      if forallb (fun r => (length r =? length r0)%nat) rows
      then OutputModel.mapE (fun r => OutputModel.mapE (fun w => pf (strip w)) r) rows else Err ValueError
  end.
(** Line 356. *)
Definition two_dims (data : list (list num)) (width : nat) : bool :=
  match data with r0 :: _ :: _ => (2 <=? length r0)%nat && (length r0 =? width)%nat | _ => false end.

(** ** One pass *)
Inductive bnd := PO | EQ.
Definition btext (b : bnd) : string := match b with PO => "PO" | EQ => "EQ" end.
Definition col_name (what : string) (b : bnd) (i : string) : str := s2l what ++ s2l " " ++ s2l (btext b) ++ s2l i.
(** Lines 360-378: the value of a named column. *)
Definition valueE (names : list str) (row : list num) (name : str) : res num := i <- index name names ;; getE row (Z.of_nat i).
(** Lines 371-373 and 389-391: the middle time; [timedelta] rejects NaN, and its result is
    rounded to microseconds.  Exact here; in binary64 in [FmidModel]. *)
Definition mid_time (day : Z) (t1 t2 : num) : res Z :=
  match t1, t2 with
  | Fin a, Fin b => add_us day (round_half_even ((1 # 2) * (b + a) * inject_Z 1000000))
  | NaN, _ | _, NaN | PInf, NInf | NInf, PInf => Err ValueError
  | _, _ => Err OverflowError
  end.
(** Lines 397-399. *)
Definition to_xy (lat mlt : fl) : res (fl * fl) :=
  th <- hr2rad (fmap (fun m => (m - 6)%R) mlt) (2 * PI) ;;
  Ok (fmap2 (fun l t => ((90 - Rabs l) * cos t)%R) lat th, fmap2 (fun l t => ((90 - Rabs l) * sin t)%R) lat th).
(** ["{:.3f}".format(x)] of a real or NaN, ties to even.  (Python writes -0.0 with its sign.) *)
Definition fixed3 (x : fl) : str :=
  match x with
  | None => s2l "nan"
  | Some r =>
      let m := ZnearestE (Rabs r * 1000) in
      (if Rlt_dec r 0 then ["-"%char] else []) ++ dec (m / 1000) ++ "."%char :: padn 3 (m mod 1000)
  end.
(** [mid_time.strftime('%Y-%m-%d %H:%M:%S')]: the fraction of the second is dropped. *)
Definition second_text (t : Z) : str := datetime_text (t - t mod 1000000).
Definition sum2 (f : R -> R -> R) (a b : fl) : fl := fmap2 f a b.
Section Ssj.
Context (pf : str -> res num) (aacgm : num -> num -> Z -> fl * fl).
(** Lines 389-418: the line of a pass. *)
Definition pass_line (sc day : Z) (fom t1 t2 lat1 lon1 lat2 lon2 : num) : res str :=
  t <- mid_time day t1 t2 ;;
  p <- to_xy (fst (aacgm lat1 lon1 t)) (snd (aacgm lat1 lon1 t)) ;;
  q <- to_xy (fst (aacgm lat2 lon2 t)) (snd (aacgm lat2 lon2 t)) ;;
  let '(x0, y0) := p in
  let '(x1, y1) := q in
  let dx := sum2 Rminus x0 x1 in
  let dy := sum2 Rminus y0 y1 in
  let rad := sum2 (fun a b => (sqrt (a ^ 2 + b ^ 2) / 2)%R) dx dy in
  let mid_x := sum2 (fun a b => (1 / 2 * (a + b))%R) x0 x1 in
  let mid_y := sum2 (fun a b => (1 / 2 * (a + b))%R) y0 y1 in
  Ok (text_line [fmt_d sc; second_text t; fixed3 rad; fixed3 mid_x; fixed3 mid_y; fixed 3 fom; fixed3 x0; fixed3 y0; fixed3 x1; fixed3 y1; []]).

(** ** The files written *)
(** A line written to the file of a hemisphere and a boundary. *)
Definition event : Type := Z * bnd * str.
(** Line 421: [fpout[hh]]. *)
Definition hemi_key (h : num) : res Z :=
  match h with Fin q => if Qeq_bool q 1 then Ok 1 else if Qeq_bool q (-1) then Ok (-1) else Err KeyError | _ => Err KeyError end.
(** Lines 382-421, one row; [names] are the columns. *)
Definition write_bnd (sc day : Z) (names : list str) (row : list num) (b : bnd) : res event :=
  t1 <- valueE names row (col_name "UTSec" b "1") ;;
  t2 <- valueE names row (col_name "UTSec" b "2") ;;
  la1 <- valueE names row (col_name "SC_GEOCENTRIC_LAT" b "1") ;;
  la2 <- valueE names row (col_name "SC_GEOCENTRIC_LAT" b "2") ;;
  lo1 <- valueE names row (col_name "SC_GEOCENTRIC_LON" b "1") ;;
  lo2 <- valueE names row (col_name "SC_GEOCENTRIC_LON" b "2") ;;
  hh <- valueE names row (s2l "hemisphere") ;;
  fom <- valueE names row (s2l "FOM") ;;
  line <- pass_line sc day fom t1 t2 la1 lo1 la2 lo2 ;;
  h <- hemi_key hh ;;
  Ok (h, b, line).
Definition write_row (sc day : Z) (names : list str) (row : list num) : res (list event) :=
  p <- write_bnd sc day names row PO ;; e <- write_bnd sc day names row EQ ;; Ok [p; e].
(** Lines 336-421, one file: what is written, or the file is bad. *)
Definition format_file (name : str) (lines : list str) : res (option (list event)) :=
  p0 <- part (name_parts name) 0 ;;
  sc <- py_int p0 ;;
  p3 <- part (name_parts name) 3 ;;
  day <- sp_time (strptime p3 "%Y%m%d") ;;
  let '(head, rest) := header_of lines in
  let names := names_of_header head in
  data <- loadtxt pf rest ;;
  if two_dims data (length names) then es <- OutputModel.mapE (write_row sc day names) data ;; Ok (Some (concat es)) else Ok None.
Fixpoint format_files (files : list (str * list str)) : res (list event * list str) :=
  match files with
  | [] => Ok ([], [])
  | (name, lines) :: r =>
      o <- format_file name lines ;;
      p <- format_files r ;;
      Ok (match o with Some es => (es ++ fst p, snd p) | None => (fst p, name :: snd p) end)
  end.
(** Lines 283-431 for the existing files among the arguments: what is written after the
    headers, and the bad files (424-426).  The output names (309-321) are computed first. *)
Definition format_ssj (files : list (str * list str)) : res (list event * list str) :=
  _ <- out_name (map fst files) (s2l "north") (s2l ".ocb") ;; format_files files.
End Ssj.
(** Lines 304, 330-334: the lines of an output file. *)
Definition ssj_header : str := s2l "#sc date time r x y fom x_1 y_1 x_2 y_2" ++ [newline].
Definition bnd_eqb (a b : bnd) : bool := match a, b with PO, PO | EQ, EQ => true | _, _ => false end.
Definition file_of (h : Z) (b : bnd) (es : list event) : list str :=
  ssj_header :: map snd (filter (fun e : event => (fst (fst e) =? h) && bnd_eqb (snd (fst e)) b) es).
