(** Model of [year_soy_to_datetime] (ocbpy/ocb_time.py:52-88) and of the seconds of day of
    [convert_time] (ocb_time.py:183-191) in IEEE binary64 arithmetic, where [TimeModel] has exact
    rationals. *)
From Coq Require Import String Ascii ZArith QArith List Bool.
From Flocq Require Import Core BinarySingleNaN.
From Verif Require Import PyBase FloatModel FtimeModel TimeModel.
Import ListNotations.
Open Scope list_scope.
Open Scope Z_scope.

(** [np.floor], [np.ceil] and the whole part of [np.modf], as floats. *)
Definition f64_floor (x : f64) : f64 := @Bnearbyint 53 1024 emax1024 mode_DN x.
Definition f64_ceil (x : f64) : f64 := @Bnearbyint 53 1024 emax1024 mode_UP x.
Definition f64_trunc (x : f64) : f64 := @Bnearbyint 53 1024 emax1024 mode_ZR x.

(** The exact value of a finite double, as the formatting of floats uses it.  Simplification:
    the sign of a zero is lost ("-0" is never formatted for seconds of year from 0 on). *)
Definition b2q (x : f64) : Q :=
  match x with
  | B754_finite s m e _ =>
      let z := if s then Z.neg m else Z.pos m in
      if 0 <=? e then inject_Z (z * 2 ^ e) else z # Z.to_pos (2 ^ (- e))
  | _ => 0%Q
  end.
(** [int(x)] of a float that holds a whole number. *)
Definition b2z (x : f64) : Z := @Btrunc 53 1024 x.

(** ocb_time.py:68-84. *)
Definition year_soy_text_f (yyyy : Z) (soy : f64) : str :=
  let ddd := f64_floor (f64_div soy (whole 86400)) in
  let hh := f64_floor (f64_div (f64_sub soy (f64_mul ddd (whole 86400))) (whole 3600)) in
  let mm := f64_floor (f64_div (f64_sub (f64_sub soy (f64_mul ddd (whole 86400))) (f64_mul hh (whole 3600))) (whole 60)) in
  let ss := f64_sub (f64_sub (f64_sub soy (f64_mul ddd (whole 86400))) (f64_mul hh (whole 3600))) (f64_mul mm (whole 60)) in
  fmt_d yyyy ++ ["-"%char] ++ fmt_0f (b2q (f64_add ddd (whole 1))) ++ ["-"%char] ++ fmt_0f (b2q hh)
    ++ ["-"%char] ++ fmt_0f (b2q mm) ++ ["-"%char] ++ fmt_0f (b2q ss).
(** ocb_time.py:52-88. *)
Definition year_soy_to_datetime_f (yyyy : Z) (soy : f64) : res Z :=
  sp_time (strptime (year_soy_text_f yyyy soy) year_soy_fmt).

(** ocb_time.py:183-191.  [np.modf] is exact. *)
Definition add_sod_f (t : Z) (sod : f64) : res Z :=
  let sec := f64_trunc sod in
  let microsec := f64_sub sod sec in
  t1 <- add_us t (b2z sec * 1000000) ;;
  if f64_lt (B754_zero false) microsec then
    add_us t1 (b2z (f64_ceil (f64_mul microsec (whole 1000000))))
  else Ok t1.

(** ocb_time.py:121-202 with seconds of year and seconds of day as floats; otherwise
    [TimeModel.convert_time]. *)
Definition convert_time_f (year : option Z) (soy : option f64) (yyddd : option str)
  (sod : option f64) (date tod : option str) (fmt : str) : res Z :=
  match year, soy with
  | Some y, Some s =>
      match strptime (year_soy_text_f y s) year_soy_fmt with
      | SpUnconverted rest => on_unconverted None rest fmt
      | r => sp_time r
      end
  | _, _ =>
      let with_date (date : option str) (fmt : str) :=
        let fin (str_time fmt : str) :=
          match strptime str_time fmt with
          | SpUnconverted rest => on_unconverted (Some str_time) rest fmt
          | r => t <- sp_time r ;; match sod with None => Ok t | Some s => add_sod_f t s end
          end in
        match tod with
        | None => fin (match date with Some d => d | None => s2l "None" end)
                      (cut_time (s2l " SOD") (cut_time (s2l " %H:%M:%S") fmt))
        | Some td =>
            match date with
            | None => Err TypeError
            | Some d => fin (d ++ [" "%char] ++ td) fmt
            end
        end in
      match yyddd with
      | None => with_date date fmt
      | Some s =>
          r <- yyddd_strptime s ;;
          match r with
          | SpUnconverted rest => on_unconverted None rest fmt
          | SpErr => Err ValueError
          | SpOk y m d _ _ _ _ => with_date (Some (strftime_ymd y m d)) (yyddd_fmt fmt)
          end
      end
  end.
