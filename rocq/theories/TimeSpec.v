(** Independent vocabulary for times: the Gregorian calendar by counting years,
    and texts by their digits. *)
From Coq Require Import String Ascii ZArith QArith List Bool.
From Verif Require Import PyBase TimeModel.
Import ListNotations.
Open Scope Z_scope.

(** A leap year is divisible by 4, and not by 100 unless by 400. *)
Definition leap_year (y : Z) : Prop := (4 | y) /\ (~ (100 | y) \/ (400 | y)).

(** [year_start y d]: 1 January of year [y] is [d] days after 1 January of year 1. *)
Inductive year_start : Z -> Z -> Prop :=
| ys_one : year_start 1 0
| ys_leap : forall y d, year_start y d -> leap_year y -> year_start (y + 1) (d + 366)
| ys_common : forall y d, year_start y d -> ~ leap_year y -> year_start (y + 1) (d + 365).

(** [months_before y m d]: month [m] of year [y] starts [d] days into the year. *)
Definition month_days (y m n : Z) : Prop :=
  (In m [1; 3; 5; 7; 8; 10; 12] /\ n = 31) \/ (In m [4; 6; 9; 11] /\ n = 30) \/
  (m = 2 /\ leap_year y /\ n = 29) \/ (m = 2 /\ ~ leap_year y /\ n = 28).
Inductive month_start (y : Z) : Z -> Z -> Prop :=
| ms_one : month_start y 1 0
| ms_next : forall m d n, month_start y m d -> month_days y m n -> month_start y (m + 1) (d + n).

(** A calendar date, and its distance in days from 1 January of year 1. *)
Definition calendar_day (y m d n : Z) : Prop :=
  1 <= y <= 9999 /\ 1 <= m <= 12 /\ 1 <= d /\
  (exists k, month_days y m k /\ d <= k) /\
  exists a b, year_start y a /\ month_start y m b /\ n = a + b + (d - 1).

(** [sec_us s] seconds in microseconds. *)
Definition day_us (n : Z) : Z := n * 86400000000.
Definition sec_us (s : Z) : Z := s * 1000000.

(** A digit character and its value. *)
Definition is_digit_of (c : ascii) (n : Z) : Prop := 0 <= n <= 9 /\ code c = 48 + n.

(** [written v s]: [s] is a nonempty string of digits denoting [v] (leading
    zeros allowed). *)
Inductive written : Z -> str -> Prop :=
| wr_one : forall c n, is_digit_of c n -> written n [c]
| wr_snoc : forall s c v n, written v s -> is_digit_of c n -> written (10 * v + n) (s ++ [c]).

Definition valid_tm (t : tm) : Prop :=
  1 <= t_year t <= 9999 /\ 1 <= t_mon t <= 12 /\ 1 <= t_day t <= 31 /\
  0 <= t_hour t <= 23 /\ 0 <= t_min t <= 59 /\ 0 <= t_sec t <= 59 /\
  0 <= t_us t <= 999999 /\ 0 <= t_wday t <= 6 /\ 1 <= t_yday t <= 366.

(** Number of uses of a directive in a format. *)
Definition is_dir (c : ascii) (p : piece) : bool :=
  match p with PDir k => Ascii.eqb c k | PLit _ => false end.
Definition uses (c : ascii) (ps : list piece) : Z := zlen (filter (is_dir c) ps).

(** Texts of fixed width: four digits, two digits, "YYYY-MM-DD" and
    "YYYY-MM-DD HH:MM:SS". *)
Definition date4 (s : str) (v : Z) : Prop :=
  exists c1 c2 c3 c4 a b c d, s = [c1; c2; c3; c4] /\ is_digit_of c1 a /\ is_digit_of c2 b /\
    is_digit_of c3 c /\ is_digit_of c4 d /\ v = 1000 * a + 100 * b + 10 * c + d.
Definition date2 (s : str) (v : Z) : Prop :=
  exists c1 c2 a b, s = [c1; c2] /\ is_digit_of c1 a /\ is_digit_of c2 b /\ v = 10 * a + b.
Definition date_text (y m d : Z) (s : str) : Prop :=
  exists sy sm sd, date4 sy y /\ date2 sm m /\ date2 sd d /\
    s = sy ++ ["-"%char] ++ sm ++ ["-"%char] ++ sd.
Definition tod_text (h m s : Z) (t : str) : Prop :=
  exists sh sm ss, date2 sh h /\ date2 sm m /\ date2 ss s /\
    t = sh ++ [":"%char] ++ sm ++ [":"%char] ++ ss.
