(** Model of ocbpy/instruments/supermag.py: [supermag2ascii_ocb] (24-204) and of
    ocbpy/instruments/vort.py: [vort2ascii_ocb] (31-213), from the lines of the input file
    to the lines of the output file.

    Values are [num]: [pf] is [float] on text.  The boundary object is an OCBoundary or
    EABoundary; it is given with its hemisphere, or made by [make] (OCBoundary on [ocbfile])
    from hemisphere, start and end.  The values computed from a measurement at a boundary
    record ([VectorData.set_ocb], [normal_coord] and the scaling function, modelled in
    ScalingModel, VectorModel and CoordModel) enter as the functions [conv] and [vconv].
    What a call that raises has left in the output file is not modelled. *)
From Coq Require Import String Ascii ZArith QArith Qabs List Bool.
From Verif Require Import PyBase TimeModel FilesModel SmagModel VortModel CycleModel DriverModel PysatModel.
Import ListNotations.
Open Scope string_scope.
Open Scope list_scope.
Open Scope Z_scope.

(** ** Python's formatting of floats and datetimes *)
(** The last [n] digits of a number. *)
Fixpoint padn (n : nat) (z : Z) : str := match n with O => [] | S k => padn k (z / 10) ++ [dig (z mod 10)] end.
(** ["{:.nf}".format(x)]: the sign, then the nearest number with [n] decimals, ties to even.
    (Python writes -0.0 with its sign; it is 0 here.) *)
Definition fixed (n : nat) (x : num) : str :=
  match x with
  | NaN => s2l "nan"
  | PInf => s2l "inf"
  | NInf => s2l "-inf"
  | Fin q =>
      let m := round_half_even (Qabs q * inject_Z (10 ^ Z.of_nat n)) in
      (if Qle_bool 0 q then [] else ["-"%char]) ++ dec (m / 10 ^ Z.of_nat n) ++ "."%char :: padn n (m mod 10 ^ Z.of_nat n)
  end.
(** The year of a day counted from 0001-01-01: the last one that starts by that day. *)
Fixpoint year_from (fuel : nat) (y days : Z) : Z :=
  match fuel with O => y | S f => if days_before_year (y + 1) <=? days then year_from f (y + 1) days else y end.
Definition year_of (days : Z) : Z := year_from (S (Z.to_nat (days / 365 - days / 366))) (days / 366 + 1) days.
(** ["{:}".format(t)] of a datetime. *)
Definition datetime_text (t : Z) : str :=
  let days := t / us_day in
  let y := year_of days in
  let '(_, m, d) := of_doy y (days - days_before_year y + 1) in
  let us := t mod us_day in
  let s := us / 1000000 in
  let f := us mod 1000000 in
  padn 4 y ++ "-"%char :: padn 2 m ++ "-"%char :: padn 2 d ++ " "%char ::
    padn 2 (s / 3600) ++ ":"%char :: padn 2 (s / 60 mod 60) ++ ":"%char :: padn 2 (s mod 60) ++
    (if f =? 0 then [] else "."%char :: padn 6 f).
Definition newline : ascii := ascii_of_nat 10.
(** The words, each with the blank written after it, and the last one with the newline. *)
Fixpoint text_line (ws : list str) : str :=
  match ws with [] => [newline] | [w] => w ++ [newline] | w :: r => w ++ " "%char :: text_line r end.

(** ** Columns of a loaded table *)
Fixpoint mapE {A B} (f : A -> res B) (l : list A) : res (list B) :=
  match l with [] => Ok [] | a :: r => b <- f a ;; bs <- mapE f r ;; Ok (b :: bs) end.
Definition column (t : table num) (k : str) : res (list (cell num)) := match lookup k t with Some l => Ok l | None => Err KeyError end.
(** The columns as arrays; other contents do not arise from the loaders. *)
Definition as_time (c : cell num) : res Z := match c with CT t => Ok t | _ => Err TypeError end.
Definition as_int (c : cell num) : res Z := match c with CZ z => Ok z | _ => Err TypeError end.
Definition as_float (c : cell num) : res num := match c with CF x => Ok x | CZ z => Ok (Fin (inject_Z z)) | _ => Err TypeError end.
Definition as_text (c : cell num) : res str := match c with CS s => Ok s | _ => Err TypeError end.
Definition times (t : table num) (k : string) : res (list Z) := l <- column t (s2l k) ;; mapE as_time l.
Definition ints (t : table num) (k : string) : res (list Z) := l <- column t (s2l k) ;; mapE as_int l.
Definition floats (t : table num) (k : string) : res (list num) := l <- column t (s2l k) ;; mapE as_float l.
Definition texts (t : table num) (k : string) : res (list str) := l <- column t (s2l k) ;; mapE as_text l.

(** ** The boundary object *)
(** supermag.py:92-117 and vort.py:106-130: the object and the hemisphere.  [ts] and [lat] are
    the columns of times and latitudes; [detect_hemisphere] of PysatModel is the same code. *)
Definition boundary_for (make : num -> Z -> Z -> res boundary) (given : option (boundary * num)) (hemisphere : num) (max_sdiff : Z)
  (ts : res (list Z)) (lat : res (list num)) : res (boundary * num) :=
  match given with
  | Some (b, bh) => Ok (b, if neqb hemisphere (Fin 0) then bh else hemisphere)
  | None =>
      tl <- ts ;; first <- getE tl 0 ;; last <- getE tl (-1) ;;
      s <- add_us first (- ((max_sdiff + 1) * 1000000)) ;; e <- add_us last ((max_sdiff + 1) * 1000000) ;;
      h <- (if neqb hemisphere (Fin 0) then la <- lat ;; detect_hemisphere hemisphere la else Ok hemisphere) ;;
      b <- make h s e ;; Ok (b, h)
  end.

(** ** SuperMAG *)
(** One place of the columns used. *)
Record mrow := mkRow {
  m_time : Z; m_id : str; m_sml : Z; m_smu : Z; m_sza : num; m_mlat : num; m_mlt : num; m_bn : num; m_be : num; m_bz : num }.
Definition rows_of (t : table num) : res (list mrow) :=
  ts <- times t "DATETIME" ;; ids <- texts t "STID" ;; sml <- ints t "SML" ;; smu <- ints t "SMU" ;; sza <- floats t "SZA" ;;
  mlat <- floats t "MLAT" ;; mlt <- floats t "MLT" ;; bn <- floats t "BN" ;; be <- floats t "BE" ;; bz <- floats t "BZ" ;;
  mapE (fun i =>
    a <- getE ts i ;; s <- getE ids i ;; l <- getE sml i ;; u <- getE smu i ;; z <- getE sza i ;;
    la <- getE mlat i ;; lt <- getE mlt i ;; n <- getE bn i ;; e <- getE be i ;; v <- getE bz i ;;
    Ok (mkRow a s l u z la lt n e v)) (map Z.of_nat (seq 0 (length ts))).
(** supermag.py:125-128. *)
Definition usable (h : num) (r : mrow) : bool :=
  nfinite (m_mlt r) && nfinite (m_mlat r) && nfinite (m_be r) && nfinite (m_bn r) && nfinite (m_bz r) && neqb (nsign (m_mlat r)) h.
(** supermag.py:137-144: all three optional columns are in a loaded table. *)
Definition smag_header : str :=
  text_line (map s2l ["#DATE"; "TIME"; "NST"; "STID"; "SML"; "SMU"; "SZA"; "MLAT"; "MLT"; "BMAG"; "BN"; "BE"; "BZ";
                      "OCB_MLAT"; "OCB_MLT"; "OCB_BMAG"; "OCB_BN"; "OCB_BE"; "OCB_BZ"]).
(** What [VectorData] holds for a station after [set_ocb] (162-168). *)
Record mvec := mkVec { x_mag : num; x_lat : num; x_mlt : num; x_omag : num; x_n : num; x_e : num; x_z : num }.
(** supermag.py:177-198. *)
Definition smag_out_line (nst : Z) (r : mrow) (v : mvec) : str :=
  text_line [datetime_text (m_time r); fmt_d nst; m_id r; fmt_d (m_sml r); fmt_d (m_smu r); fixed 2 (m_sza r);
    fixed 2 (m_mlat r); fixed 2 (m_mlt r); fixed 2 (x_mag v); fixed 2 (m_bn r); fixed 2 (m_be r); fixed 2 (m_bz r);
    fixed 2 (x_lat v); fixed 2 (x_mlt v); fixed 2 (x_omag v); fixed 2 (x_n v); fixed 2 (x_e v); fixed 2 (x_z v)].
Section Supermag.
Context (pf : str -> res num) (nanfill : num -> num) (make : num -> Z -> Z -> res boundary) (conv : Z -> mrow -> mvec).
(** supermag.py:82-204: the lines written, [None] when the output file is not opened. *)
Definition supermag2ascii (isfile : bool) (size : Z) (lines : list str) (outfile_is_text : bool) (hemisphere : num)
  (given : option (boundary * num)) (max_sdiff : Z) (mn mx : option num) (ks : list crit) : res (option (list str)) :=
  if negb (test_file isfile size) then Err IOError
  else if negb outfile_is_text then Err IOError
  else
    ht <- load_supermag pf nanfill isfile size lines ;;
    let t := snd ht in
    bh <- boundary_for make given hemisphere max_sdiff (times t "DATETIME") (floats t "MLAT") ;;
    let '(b, h) := bh in
    if b_records b =? 0 then Ok None
    else
      rows <- rows_of t ;;
      let sel := filter (usable h) rows in
      let dat := map m_time sel in
      pairs <- supermag_pairs b dat max_sdiff mn mx ks ;;
      out <- mapE (fun p => r <- getE sel (fst p) ;; Ok (smag_out_line (zlen (same_time dat (fst p))) r (conv (snd p) r))) pairs ;;
      Ok (Some (smag_header :: out)).
End Supermag.

(** ** Vorticity *)
(** vort.py:161-169: the columns written with [save_all]. *)
Definition vort_keys_out (t : table num) : list str := filter (fun k => negb (str_eqb k "DATETIME")) (map fst t).
Definition vort_header (save_all : bool) (t : table num) : str :=
  text_line (map s2l ["#DATE"; "TIME"] ++ (if save_all then vort_keys_out t else []) ++ map s2l ["OCB_LAT"; "OCB_MLT"; "NORM_VORT"]).
Section Vort.
(** [show] is ["{:}".format] of a float. *)
Context (pf : str -> res num) (secs : num -> res Z) (show : num -> str) (make : num -> Z -> Z -> res boundary) (vconv : Z -> num -> num -> num -> num * num * num).
Definition show_cell (c : cell num) : str :=
  match c with CZ z => fmt_d z | CF x => show x | CS s => s | CT t => datetime_text t end.
(** vort.py:203-207: the values of row [i] of the downselected columns, [i0] its place in the file. *)
Definition all_values (t : table num) (i0 : Z) : res (list str) :=
  mapE (fun k => l <- column t k ;; c <- getE l i0 ;; Ok (show_cell c)) (vort_keys_out t).
(** vort.py:90-213. *)
Definition vort2ascii (isfile : bool) (size : Z) (lines : list str) (outfile_is_text : bool) (hemisphere : num)
  (given : option (boundary * num)) (max_sdiff : Z) (save_all : bool) (mn mx : option num) (ks : list crit) : res (option (list str)) :=
  if negb (test_file isfile size) then Err IOError
  else if negb outfile_is_text then Err IOError
  else
    ot <- load_vort pf secs isfile size save_all lines ;;
    match ot with
    | None => Err ValueError
    | Some t =>
        bh <- boundary_for make given hemisphere max_sdiff (times t "DATETIME") (floats t "CENTRE_MLAT") ;;
        let '(b, h) := bh in
        if b_records b =? 0 then Ok None
        else
          ts <- times t "DATETIME" ;; lat <- floats t "CENTRE_MLAT" ;; mlt <- floats t "MLT" ;; vort <- floats t "VORTICITY" ;;
          let igood := where_from 0 (map (fun x => neqb (nsign x) h) lat) in
          match igood with
          | [] => Ok None
          | _ =>
              dat <- mapE (getE ts) igood ;;
              pairs <- vort_pairs b dat max_sdiff mn mx ks ;;
              out <- mapE (fun p =>
                i <- getE igood (fst p) ;; t0 <- getE ts i ;; la <- getE lat i ;; lt <- getE mlt i ;; v <- getE vort i ;;
                extra <- (if save_all then all_values t i else Ok []) ;;
                let '(nlat, nmlt, nvort) := vconv (snd p) la lt v in
                Ok (text_line (datetime_text t0 :: extra ++ [fixed 2 nlat; fixed 6 nmlt; fixed 6 nvort]))) pairs ;;
              Ok (Some (vort_header save_all t :: out))
          end
    end.
End Vort.
