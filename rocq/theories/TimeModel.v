(** Model of the time-format routines of ocbpy/ocb_time.py:
    [get_datetime_fmt_len] (17-49), [year_soy_to_datetime] (52-88),
    [yyddd_to_date] (91-118), [convert_time] (121-202),
    together with the parts of Python's datetime/strptime they use.

    Strings are lists of characters.  A datetime is its number of microseconds
    since 0001-01-01 00:00:00.  Seconds of year and seconds of day are exact
    rationals: every finite binary64 is one.  The rounding of the divisions and
    of [microsec * 1.0e6] is in FsoyModel.v (C182: it does not change the time of
    a year and seconds of year; C183). *)
From Coq Require Import String Ascii ZArith QArith Qround List Bool.
From Verif Require Import PyBase.
Import ListNotations.
Open Scope string_scope.
Open Scope list_scope.
Open Scope Z_scope.

Definition str := list ascii.
Definition s2l (s : string) : str := list_ascii_of_string s.
Coercion s2l : string >-> str.

(** ** Characters and string primitives of Python *)
Definition code (c : ascii) : Z := Z.of_N (N_of_ascii c).
Definition chr (z : Z) : ascii := ascii_of_N (Z.to_N z).
Definition dig (n : Z) : ascii := chr (48 + n).
Definition between (a b : Z) (c : ascii) : bool := (48 + a <=? code c) && (code c <=? 48 + b).
Definition isdigit : ascii -> bool := between 0 9.
Definition isspace (c : ascii) : bool :=
  (code c =? 32) || ((9 <=? code c) && (code c <=? 13)) ||
  ((28 <=? code c) && (code c <=? 31)).
Definition upchar (c : ascii) : ascii :=
  if (97 <=? code c) && (code c <=? 122) then chr (code c - 32) else c.
Definition upper : str -> str := map upchar.

Fixpoint prefix (p s : str) : bool :=
  match p, s with
  | [], _ => true
  | a :: p', b :: s' => Ascii.eqb a b && prefix p' s'
  | _, [] => false
  end.
(** [s.find(sub)]: first index, [None] for Python's -1. *)
Fixpoint find (sub s : str) : option nat :=
  if prefix sub s then Some O
  else match s with
       | [] => None
       | _ :: s' => option_map S (find sub s')
       end.
Definition contains (sub s : str) : bool :=
  match find sub s with Some _ => true | None => false end.
(** [s.replace(old, new)] for a nonempty [old]. *)
Fixpoint replace_aux (skip : nat) (old new s : str) : str :=
  match s with
  | [] => []
  | c :: s' =>
      match skip with
      | S k => replace_aux k old new s'
      | O => if prefix old s then new ++ replace_aux (length old - 1) old new s'
             else c :: replace_aux O old new s'
      end
  end.
Definition replace (s old new : str) : str := replace_aux O old new s.
(** [s.split(".")[0]] and the last piece of [s.split(" ")]. *)
Fixpoint upto (c : ascii) (s : str) : str :=
  match s with
  | [] => []
  | a :: s' => if Ascii.eqb a c then [] else a :: upto c s'
  end.
Definition last_piece (c : ascii) (s : str) : str := rev (upto c (rev s)).
(** [s[:-n]] (Python: [s[:-0]] is empty) and [s[-n:]] for [n > 0]. *)
Definition drop_last (n : nat) (s : str) : str :=
  match n with O => [] | _ => firstn (length s - n) s end.
Definition take_last (n : nat) (s : str) : str := skipn (length s - n) s.

(** Decimal text of a nonnegative integer, and the integer a text denotes. *)
Fixpoint dec_aux (fuel : nat) (n : Z) (acc : str) : str :=
  match fuel with
  | O => acc
  | S f => if n <? 10 then dig n :: acc
           else dec_aux f (n / 10) (dig (n mod 10) :: acc)
  end.
Definition dec (n : Z) : str := dec_aux (S (Z.to_nat n)) n [].
(** ["{:d}".format(n)] of an integer. *)
Definition fmt_d (n : Z) : str := if n <? 0 then "-"%char :: dec (- n) else dec n.
(** ["{:.0f}".format(q)]: nearest integer, ties to even. *)
Definition round_half_even (q : Q) : Z :=
  let f := Qfloor q in
  let d := (q - inject_Z f)%Q in
  if Qle_bool (1 # 2) d && (negb (Qeq_bool d (1 # 2)) || Z.odd f) then f + 1 else f.
Definition fmt_0f (q : Q) : str :=
  let n := round_half_even q in
  if Qle_bool 0 q then dec n else "-"%char :: dec (- n).
Definition dval (s : str) : Z := fold_left (fun a c => a * 10 + (code c - 48)) s 0.
Definition all_digits (s : str) : bool := forallb isdigit s.
(** [int(s)]; simplification: surrounding blanks and underscores, which Python
    accepts, are rejected here. *)
Definition py_int (s : str) : res Z :=
  match s with
  | [] => Err ValueError
  | c :: t =>
      if Ascii.eqb c "-" then
        if all_digits t && negb (zlen t =? 0) then Ok (- dval t) else Err ValueError
      else if Ascii.eqb c "+" then
        if all_digits t && negb (zlen t =? 0) then Ok (dval t) else Err ValueError
      else if all_digits s then Ok (dval s) else Err ValueError
  end.

(** ** The proleptic Gregorian calendar of Python's datetime *)
Definition is_leap (y : Z) : bool :=
  (y mod 4 =? 0) && (negb (y mod 100 =? 0) || (y mod 400 =? 0)).
Definition days_before_year (y : Z) : Z :=
  let y' := y - 1 in y' * 365 + y' / 4 - y' / 100 + y' / 400.
Definition month_len (y m : Z) : Z :=
  if m =? 2 then if is_leap y then 29 else 28
  else if (m =? 4) || (m =? 6) || (m =? 9) || (m =? 11) then 30 else 31.
Definition days_before_month (y m : Z) : Z :=
  fold_left (fun a k => if k <? m then a + month_len y k else a)
    [1; 2; 3; 4; 5; 6; 7; 8; 9; 10; 11] 0.
(** Days since 0001-01-01 ([toordinal() - 1]). *)
Definition ordinal (y m d : Z) : Z := days_before_year y + days_before_month y m + (d - 1).
Definition us_day : Z := 86400000000.
Definition max_us : Z := days_before_year 10000 * us_day.
(** [datetime(y, m, d, H, M, S, f)], ValueError outside the ranges. *)
Definition mk_datetime (y m d H M Sc f : Z) : res Z :=
  if (1 <=? y) && (y <=? 9999) && (1 <=? m) && (m <=? 12) && (1 <=? d) && (d <=? month_len y m)
     && (0 <=? H) && (H <=? 23) && (0 <=? M) && (M <=? 59) && (0 <=? Sc) && (Sc <=? 59)
     && (0 <=? f) && (f <=? 999999)
  then Ok (ordinal y m d * us_day + ((H * 60 + M) * 60 + Sc) * 1000000 + f)
  else Err ValueError.
(** [dtime + timedelta(microseconds=us)]. *)
Definition add_us (t us : Z) : res Z :=
  let r := t + us in
  if (0 <=? r) && (r <? max_us) then Ok r else Err OverflowError.

(** Month and day of day-of-year [j], 1 <= j <= 366
    ([date.fromordinal(date(y,1,1).toordinal() + j - 1)]). *)
Fixpoint month_day (fuel : nat) (y m j : Z) : Z * Z * Z :=
  match fuel with
  | O => (y + 1, 1, j)
  | S k => if j <=? month_len y m then (y, m, j)
           else month_day k y (m + 1) (j - month_len y m)
  end.
Definition of_doy (y j : Z) : Z * Z * Z := month_day 12 y 1 j.

(** ** strptime (CPython Lib/_strptime.py), directives Y y m d j H M S f.
    Each directive is an ordered list of alternatives, each a list of character
    classes; matching backtracks like the regular expression does. Formats that
    use another directive, or one directive twice, are outside this model. *)
Inductive dirv := DY | Dy | Dm | Dd | Dj | DH | DM | DS | Df.
Definition ch (a : Z) : ascii -> bool := between a a.
Definition dg : ascii -> bool := between 0 9.
Definition alts (d : dirv) : list (list (ascii -> bool)) :=
  match d with
  | DY => [[dg; dg; dg; dg]]
  | Dy => [[dg; dg]]
  | Dm => [[ch 1; between 0 2]; [ch 0; between 1 9]; [between 1 9]]
  | Dd => [[ch 3; between 0 1]; [between 1 2; dg]; [ch 0; between 1 9]; [between 1 9];
           [fun c => code c =? 32; between 1 9]]
  | Dj => [[ch 3; ch 6; between 0 6]; [ch 3; between 0 5; dg]; [between 1 2; dg; dg];
           [ch 0; between 1 9; dg]; [ch 0; ch 0; between 1 9]; [between 1 9; dg];
           [ch 0; between 1 9]; [between 1 9]]
  | DH => [[ch 2; between 0 3]; [between 0 1; dg]; [dg]]
  | DM => [[between 0 5; dg]; [dg]]
  | DS => [[ch 6; between 0 1]; [between 0 5; dg]; [dg]]
  | Df => [[dg; dg; dg; dg; dg; dg]; [dg; dg; dg; dg; dg]; [dg; dg; dg; dg]; [dg; dg; dg];
           [dg; dg]; [dg]]
  end.
Fixpoint try_alt (cl : list (ascii -> bool)) (s : str) : option (str * str) :=
  match cl, s with
  | [], _ => Some ([], s)
  | p :: cl', c :: s' =>
      if p c then match try_alt cl' s' with
                  | Some (a, r) => Some (c :: a, r)
                  | None => None end
      else None
  | _ :: _, [] => None
  end.
Definition candidates (d : dirv) (s : str) : list (str * str) :=
  flat_map (fun a => match try_alt a s with Some p => [p] | None => [] end) (alts d).

Inductive tok := TDir (d : dirv) | TLit (c : ascii) | TSpace.
Definition dir_of (c : ascii) : option dirv :=
  if Ascii.eqb c "Y" then Some DY else if Ascii.eqb c "y" then Some Dy
  else if Ascii.eqb c "m" then Some Dm else if Ascii.eqb c "d" then Some Dd
  else if Ascii.eqb c "j" then Some Dj else if Ascii.eqb c "H" then Some DH
  else if Ascii.eqb c "M" then Some DM else if Ascii.eqb c "S" then Some DS
  else if Ascii.eqb c "f" then Some Df else None.
(** Format string to tokens; runs of white space become one [\s+]. *)
Fixpoint parse_fmt (f : str) : option (list tok) :=
  match f with
  | [] => Some []
  | c :: f' =>
      if Ascii.eqb c "%" then
        match f' with
        | [] => None
        | k :: f'' =>
            match dir_of k, parse_fmt f'' with
            | Some d, Some t => Some (TDir d :: t)
            | None, Some t => if Ascii.eqb k "%" then Some (TLit "%" :: t) else None
            | _, None => None
            end
        end
      else
        match parse_fmt f' with
        | None => None
        | Some t =>
            if isspace c then
              match t with TSpace :: _ => Some t | _ => Some (TSpace :: t) end
            else Some (TLit c :: t)
        end
  end.

(** All ways of matching, in the order the regular expression tries them. *)
Fixpoint spaces (s : str) : list str :=   (* suffixes after [\s+], longest match first *)
  match s with
  | c :: s' => if isspace c then spaces s' ++ [s'] else []
  | [] => []
  end.
Fixpoint matches (t : list tok) (s : str) : list (list (dirv * str) * str) :=
  match t with
  | [] => [([], s)]
  | TDir d :: t' =>
      flat_map (fun p => map (fun m => ((d, fst p) :: fst m, snd m)) (matches t' (snd p)))
        (candidates d s)
  | TLit c :: t' =>
      match s with
      | a :: s' => if Ascii.eqb (upchar a) (upchar c) then matches t' s' else []
      | [] => []
      end
  | TSpace :: t' => flat_map (matches t') (spaces s)
  end.

Record fields := mkF { fY : Z; fm : Z; fd : Z; fj : option Z; fH : Z; fM : Z; fS : Z; ff : Z }.
Definition int_sp (s : str) : Z := dval (filter (fun c => negb (code c =? 32)) s).
Definition set_field (r : fields) (p : dirv * str) : fields :=
  let v := int_sp (snd p) in
  match fst p with
  | DY => mkF v (fm r) (fd r) (fj r) (fH r) (fM r) (fS r) (ff r)
  | Dy => mkF (if v <=? 68 then v + 2000 else v + 1900) (fm r) (fd r) (fj r) (fH r) (fM r) (fS r) (ff r)
  | Dm => mkF (fY r) v (fd r) (fj r) (fH r) (fM r) (fS r) (ff r)
  | Dd => mkF (fY r) (fm r) v (fj r) (fH r) (fM r) (fS r) (ff r)
  | Dj => mkF (fY r) (fm r) (fd r) (Some v) (fH r) (fM r) (fS r) (ff r)
  | DH => mkF (fY r) (fm r) (fd r) (fj r) v (fM r) (fS r) (ff r)
  | DM => mkF (fY r) (fm r) (fd r) (fj r) (fH r) v (fS r) (ff r)
  | DS => mkF (fY r) (fm r) (fd r) (fj r) (fH r) (fM r) v (ff r)
  | Df => mkF (fY r) (fm r) (fd r) (fj r) (fH r) (fM r) (fS r)
            (v * 10 ^ (6 - zlen (snd p)))
  end.

(** Outcome of strptime: a date and time (year, month, day, H, M, S, f), the
    ValueError "unconverted data remains: rest", or another ValueError. *)
Inductive sp := SpOk (y m d H M Sc f : Z) | SpUnconverted (rest : str) | SpErr.
Definition strptime (s fmt : str) : sp :=
  match parse_fmt fmt with
  | None => SpErr
  | Some t =>
      match matches t s with
      | [] => SpErr
      | (fs, rest) :: _ =>
          match rest with
          | _ :: _ => SpUnconverted rest
          | [] =>
              let r := fold_left set_field fs (mkF 1900 1 1 None 0 0 0 0) in
              let '(y, m, d) := match fj r with
                                | Some j => of_doy (fY r) j
                                | None => (fY r, fm r, fd r) end in
              (* date(year, 1, 1) itself needs 1 <= year <= 9999 *)
              if (1 <=? fY r) && (fY r <=? 9999) then
                match mk_datetime y m d (fH r) (fM r) (fS r) (ff r) with
                | Ok _ => SpOk y m d (fH r) (fM r) (fS r) (ff r)
                | Err _ => SpErr
                end
              else SpErr
          end
      end
  end.
Definition sp_time (r : sp) : res Z :=
  match r with
  | SpOk y m d H M Sc f => mk_datetime y m d H M Sc f
  | _ => Err ValueError
  end.

(** ** ocbpy *)

(** ocb_time.py:52-88. *)
Definition year_soy_text (yyyy : Z) (soy : Q) : str :=
  let ddd := Qfloor (soy / 86400) in
  let hh := Qfloor ((soy - inject_Z ddd * 86400) / 3600) in
  let mm := Qfloor ((soy - inject_Z ddd * 86400 - inject_Z hh * 3600) / 60) in
  let ss := (soy - inject_Z ddd * 86400 - inject_Z hh * 3600 - inject_Z mm * 60)%Q in
  fmt_d yyyy ++ ["-"%char] ++ fmt_0f (inject_Z (ddd + 1)) ++ ["-"%char] ++ fmt_0f (inject_Z hh)
    ++ ["-"%char] ++ fmt_0f (inject_Z mm) ++ ["-"%char] ++ fmt_0f ss.
Definition year_soy_fmt : str := "%Y-%j-%H-%M-%S".
Definition year_soy_to_datetime (yyyy : Z) (soy : Q) : res Z :=
  sp_time (strptime (year_soy_text yyyy soy) year_soy_fmt).

(** ocb_time.py:91-118 on a string argument (a non-string is a ValueError at
    line 106-107, the [None] case here). *)
Definition yyddd_strptime (yyddd : str) : res sp :=
  let s := upto "." yyddd in
  y <- py_int (drop_last 3 s) ;;
  Ok (strptime (fmt_d (y + 1900) ++ [" "%char] ++ take_last 3 s) "%Y %j").
Definition yyddd_to_date (yyddd : option str) : res Z :=
  match yyddd with
  | None => Err ValueError
  | Some s => r <- yyddd_strptime s ;; sp_time r
  end.

(** [dtime.strftime("%Y-%m-%d")] of a date; glibc does not pad the year. *)
Definition pad2 (n : Z) : str := [dig (n / 10); dig (n mod 10)].
Definition strftime_ymd (y m d : Z) : str := dec y ++ ["-"%char] ++ pad2 m ++ ["-"%char] ++ pad2 d.

(** [datetime_fmt] after lines 161-169 and 173-177. *)
Definition ymd_fmt : str := "%Y-%m-%d".
Definition yyddd_fmt (fmt : str) : str :=
  match find ymd_fmt fmt with
  | Some _ => fmt
  | None =>
      match find "YYDDD" (upper fmt) with
      | Some i => replace fmt (firstn 5 (skipn i fmt)) ymd_fmt
      | None => ymd_fmt ++ [" "%char] ++ fmt
      end
  end.
Definition cut_time (piece fmt : str) : str :=
  match find piece (upper fmt) with
  | Some (S i) => firstn (S i) fmt
  | _ => fmt
  end.

(** ocb_time.py:183-191: the time plus the seconds of day; [np.modf] truncates
    towards zero and only a positive fraction is added. *)
Definition add_sod (t : Z) (sod : option Q) : res Z :=
  match sod with
  | None => Ok t
  | Some q =>
      let sec := if Qle_bool 0 q then Qfloor q else Qceiling q in
      let frac := (q - inject_Z sec)%Q in
      t1 <- add_us t (sec * 1000000) ;;
      if negb (Qle_bool frac 0) then add_us t1 (Qceiling (frac * 1000000)) else Ok t1
  end.

(** ocb_time.py:193-200: the handler; [str_time] is [None] when the error came
    before it was assigned (UnboundLocalError, a NameError). *)
Definition on_unconverted (str_time : option str) (rest fmt : str) : res Z :=
  match str_time with
  | None => Err NameError
  | Some s =>
      (* len(verr.args[0].split(" ")[-1]); the message is
         "unconverted data remains: " followed by [rest] *)
      sp_time (strptime (drop_last (length (last_piece " " rest)) s) fmt)
  end.

(** ocb_time.py:121-202.  The time text and format are built first. *)
Definition convert_time (year : option Z) (soy : option Q) (yyddd : option str)
  (sod : option Q) (date tod : option str) (fmt : str) : res Z :=
  match year, soy with
  | Some y, Some s =>
      match strptime (year_soy_text y s) year_soy_fmt with
      | SpUnconverted rest => on_unconverted None rest fmt
      | r => sp_time r
      end
  | _, _ =>
      let with_date (date : option str) (fmt : str) :=
        let fin (str_time fmt : str) :=
          match strptime str_time fmt with
          | SpUnconverted rest => on_unconverted (Some str_time) rest fmt
          | r => t <- sp_time r ;; add_sod t sod
          end in
        match tod with
        | None => fin (match date with Some d => d | None => s2l "None" end)
                      (cut_time " SOD" (cut_time " %H:%M:%S" fmt))
        | Some td =>
            match date with
            | None => Err TypeError
            | Some d => fin (d ++ [" "%char] ++ td) fmt
            end
        end in
      match yyddd with
      | None => with_date date fmt
      | Some s =>
          r <- yyddd_strptime s ;;
          match r with
          | SpUnconverted rest => on_unconverted None rest fmt
          | SpErr => Err ValueError
          | SpOk y m d _ _ _ _ => with_date (Some (strftime_ymd y m d)) (yyddd_fmt fmt)
          end
      end
  end.

(** ocb_time.py:17-49. *)
Definition add_len : list (str * Z) :=
  [(s2l "%a", 1); (s2l "%A", 10); (s2l "%b", 1); (s2l "%B", 8); (s2l "%Y", 2);
   (s2l "%f", 4); (s2l "%z", 3); (s2l "%Z", 1); (s2l "%j", 1); (s2l "%c", 22);
   (s2l "%x", 8); (s2l "%X", 7)].
Definition get_datetime_fmt_len (fmt : str) : Z :=
  fold_left (fun n p => if contains (fst p) fmt then n + snd p else n) add_len (zlen fmt).

(** ** strftime (C locale, naive datetimes), for the length bound *)
Record tm := mkT { t_year : Z; t_mon : Z; t_day : Z; t_hour : Z; t_min : Z; t_sec : Z;
                   t_us : Z; t_wday : Z; t_yday : Z }.
Definition pad3 (n : Z) : str := dig (n / 100) :: pad2 (n mod 100).
Definition pad6 (n : Z) : str := pad3 (n / 1000) ++ pad3 (n mod 1000).
Definition wday_name (w : Z) : str :=
  nth (Z.to_nat w) [s2l "Sunday"; s2l "Monday"; s2l "Tuesday"; s2l "Wednesday"; s2l "Thursday";
                    s2l "Friday"; s2l "Saturday"] [].
Definition month_name (m : Z) : str :=
  nth (Z.to_nat (m - 1)) [s2l "January"; s2l "February"; s2l "March"; s2l "April"; s2l "May";
    s2l "June"; s2l "July"; s2l "August"; s2l "September"; s2l "October"; s2l "November";
    s2l "December"] [].
Definition hms (t : tm) : str :=
  pad2 (t_hour t) ++ s2l ":" ++ pad2 (t_min t) ++ s2l ":" ++ pad2 (t_sec t).
Definition pad_space (n : Z) : str := if n <? 10 then [" "%char; dig n] else pad2 n.
(** The directives of the Python documentation, minus the ISO 8601 week ones. *)
Definition render_dir (c : ascii) (t : tm) : option str :=
  if Ascii.eqb c "a" then Some (firstn 3 (wday_name (t_wday t)))
  else if Ascii.eqb c "A" then Some (wday_name (t_wday t))
  else if Ascii.eqb c "w" then Some [dig (t_wday t)]
  else if Ascii.eqb c "d" then Some (pad2 (t_day t))
  else if Ascii.eqb c "b" then Some (firstn 3 (month_name (t_mon t)))
  else if Ascii.eqb c "B" then Some (month_name (t_mon t))
  else if Ascii.eqb c "m" then Some (pad2 (t_mon t))
  else if Ascii.eqb c "y" then Some (pad2 (t_year t mod 100))
  else if Ascii.eqb c "Y" then Some (dec (t_year t))
  else if Ascii.eqb c "H" then Some (pad2 (t_hour t))
  else if Ascii.eqb c "I" then Some (pad2 ((t_hour t + 11) mod 12 + 1))
  else if Ascii.eqb c "p" then Some (s2l (if t_hour t <? 12 then "AM" else "PM"))
  else if Ascii.eqb c "M" then Some (pad2 (t_min t))
  else if Ascii.eqb c "S" then Some (pad2 (t_sec t))
  else if Ascii.eqb c "f" then Some (pad6 (t_us t))
  else if Ascii.eqb c "z" then Some []
  else if Ascii.eqb c "Z" then Some []
  else if Ascii.eqb c "j" then Some (pad3 (t_yday t))
  else if Ascii.eqb c "U" then Some (pad2 ((t_yday t + 6 - t_wday t) / 7))
  else if Ascii.eqb c "W" then Some (pad2 ((t_yday t + 6 - (t_wday t + 6) mod 7) / 7))
  else if Ascii.eqb c "c" then
    Some (firstn 3 (wday_name (t_wday t)) ++ s2l " " ++ firstn 3 (month_name (t_mon t)) ++ s2l " "
          ++ pad_space (t_day t) ++ s2l " " ++ hms t ++ s2l " " ++ dec (t_year t))
  else if Ascii.eqb c "x" then
    Some (pad2 (t_mon t) ++ s2l "/" ++ pad2 (t_day t) ++ s2l "/" ++ pad2 (t_year t mod 100))
  else if Ascii.eqb c "X" then Some (hms t)
  else if Ascii.eqb c "%" then Some [c]
  else None.
(** ISO 8601 year directive; its value is within one of the calendar year. *)
Definition render_G (iso_year : Z) : str := dec iso_year.

(** A format as literal characters (not ["%"]) and directives. *)
Inductive piece := PLit (c : ascii) | PDir (c : ascii).
Definition piece_text (p : piece) : str :=
  match p with PLit c => [c] | PDir c => ["%"%char; c] end.
Definition fmt_text (ps : list piece) : str := concat (map piece_text ps).
Fixpoint strftime (ps : list piece) (t : tm) : option str :=
  match ps with
  | [] => Some []
  | PLit c :: ps' => option_map (cons c) (strftime ps' t)
  | PDir c :: ps' =>
      match render_dir c t, strftime ps' t with
      | Some a, Some b => Some (a ++ b)
      | _, _ => None
      end
  end.
