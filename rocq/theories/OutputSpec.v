(** Independent vocabulary for the output files: numbers shown with decimals, times, and the
    lines of the converted SuperMAG and vorticity files. *)
From Coq Require Import String Ascii ZArith QArith Qabs List Bool.
From Verif Require Import PyBase TimeModel TimeSpec TextSpec FilesModel SmagModel SmagSpec VortSpec CycleModel CycleSpec DriverSpec OutputModel.
Import ListNotations.
Open Scope string_scope.
Open Scope list_scope.
Open Scope Z_scope.

(** A text with [n] decimals that denotes [z] units of the last decimal. *)
Definition decimal (n : nat) (z : Z) (s : str) : Prop :=
  exists w f a b, s = w ++ "."%char :: f /\ written a w /\ written b f /\ length f = n /\ z = a * 10 ^ Z.of_nat n + b.
Definition signed (n : nat) (z : Z) (s : str) : Prop := decimal n z s \/ exists t, s = "-"%char :: t /\ decimal n (- z) t.
(** The number rounded to [n] decimals: wrong by half a unit of the last one at most. *)
Definition shows (n : nat) (x : num) (s : str) : Prop :=
  match x with
  | Fin q => exists z, signed n z s /\ (Qabs (q * inject_Z (10 ^ Z.of_nat n) - inject_Z z) <= 1 # 2)%Q
  | NaN => s = s2l "nan" | PInf => s = s2l "inf" | NInf => s = s2l "-inf"
  end.
(** The date and the time of day of an instant at a whole second. *)
Definition clock (t : Z) (date tod : str) : Prop :=
  exists y m d n h mi sc, calendar_day y m d n /\ date_text y m d date /\ tod_text h mi sc tod /\
    0 <= h <= 23 /\ 0 <= mi <= 59 /\ 0 <= sc <= 59 /\ t = day_us n + sec_us ((h * 60 + mi) * 60 + sc).

(** Members of a list with a property, in order. *)
Inductive selected {A} (P : A -> Prop) : list A -> list A -> Prop :=
| sel_nil : selected P [] []
| sel_take a l m : P a -> selected P l m -> selected P (a :: l) (a :: m)
| sel_skip a l m : ~ P a -> selected P l m -> selected P (a :: l) m.

(** ** Measurements *)
Definition finite (x : num) : Prop := exists q, x = Fin q.
(** On the northern (1) or southern (-1) side of the equator. *)
Definition on_side (h : Z) (x : num) : Prop := exists q, x = Fin q /\ ((h = 1 /\ (0 < q)%Q) \/ (h = -1 /\ (q < 0)%Q)).
Section Smag.
Context (nanfill : num -> num).
(** A station of the hemisphere whose position and field are known. *)
Definition usable_station (h : Z) (p : block num * station num) : Prop :=
  let s := snd p in
  finite (nanfill (st_mlt s)) /\ finite (nanfill (st_bn s)) /\ finite (nanfill (st_be s)) /\ finite (nanfill (st_bz s)) /\ on_side h (st_mlat s).
(** The measurement of a station. *)
Definition measured (p : block num * station num) (r : mrow) : Prop :=
  let '(b, s) := p in
  instant b (m_time r) /\ m_id r = st_id s /\ index_value (s2l "SML") (b_index b) (m_sml r) /\ index_value (s2l "SMU") (b_index b) (m_smu r) /\
  m_sza r = nanfill (st_sza s) /\ m_mlat r = st_mlat s /\ m_mlt r = nanfill (st_mlt s) /\
  m_bn r = nanfill (st_bn s) /\ m_be r = nanfill (st_be s) /\ m_bz r = nanfill (st_bz s).
Definition smag_columns : list string :=
  ["#DATE"; "TIME"; "NST"; "STID"; "SML"; "SMU"; "SZA"; "MLAT"; "MLT"; "BMAG"; "BN"; "BE"; "BZ";
   "OCB_MLAT"; "OCB_MLT"; "OCB_BMAG"; "OCB_BN"; "OCB_BE"; "OCB_BZ"].
(** The line of a station: time, number of stations, name, indices, zenith angle, position and
    field in magnetic coordinates, then [v] in boundary coordinates. *)
Definition smag_words (r : mrow) (nst : Z) (v : mvec) (ws : list str) : Prop :=
  exists date tod wn wl wu fs,
    ws = date :: tod :: wn :: m_id r :: wl :: wu :: fs /\ clock (m_time r) date tod /\
    integer nst wn /\ integer (m_sml r) wl /\ integer (m_smu r) wu /\
    Forall2 (shows 2) [m_sza r; m_mlat r; m_mlt r; x_mag v; m_bn r; m_be r; m_bz r;
                       x_lat v; x_mlt v; x_omag v; x_n v; x_e v; x_z v] fs.
End Smag.
(** Number of members of a list of times that equal one. *)
Definition times_at (ts : list Z) (t : Z) : Z := zlen (filter (Z.eqb t) ts).
(** Blocks sorted by time. *)
Definition chronological (bs : list (block num)) : Prop :=
  forall i j b b' t t', (i <= j)%nat -> nth_error bs i = Some b -> nth_error bs j = Some b' -> instant b t -> instant b' t' -> t <= t'.
(** ** The boundary *)
(** Boundary with at least one record and records in order of time, with its cursor on a record
    or not set yet, and criteria that name its attributes. *)
Definition searchable (b : boundary) (max_sdiff : Z) (ks : list crit) : Prop :=
  wf_boundary b /\ wf_crits b ks /\ strictly_time_sorted (b_dtime b) /\ 0 <= max_sdiff /\ 0 < b_records b /\ -1 <= b_rec_ind b < b_records b.
(** Hemisphere and boundary asked for: those given, or the hemisphere of the latitudes of the
    data and the boundary made for the period of the data and [max_sdiff] + 1 s around it. *)
Definition boundary_used (make : num -> Z -> Z -> res boundary) (given : option (boundary * num)) (hemisphere : num) (max_sdiff : Z)
  (ts : list Z) (lats : list num) (h : Z) (b : boundary) : Prop :=
  (h = 1 \/ h = -1) /\
  match given with
  | Some (b', bh) => b' = b /\ (hemisphere = Fin (inject_Z h) \/ hemisphere = Fin 0 /\ bh = Fin (inject_Z h))
  | None =>
      (hemisphere = Fin (inject_Z h) \/ hemisphere = Fin 0 /\ forall x, In x lats -> on_side h x) /\
      exists first last d, nth_error ts 0 = Some first /\ nth_error ts (length ts - 1) = Some last /\ calendar_day 9999 12 31 d /\
        0 <= first - sec_us (max_sdiff + 1) /\ last + sec_us (max_sdiff + 1) < day_us (d + 1) /\
        make (Fin (inject_Z h)) (first - sec_us (max_sdiff + 1)) (last + sec_us (max_sdiff + 1)) = Ok b
  end.
(** ** Vorticity entries *)
(** Beyond the equator, on the northern (1) or southern (-1) side. *)
Definition beyond (h : Z) (x : num) : Prop := (h = 1 /\ nlt (Fin 0) x = true) \/ (h = -1 /\ nlt x (Fin 0) = true).
Section VortLines.
Context (pf : str -> res num) (secs : num -> res Z) (show : num -> str).
Definition has_value (k : string) (e : vline) (v : num) : Prop := exists w, In (k, w) (items e) /\ number pf v w.
Definition usable_entry (h : Z) (p : vblock num * vline) : Prop := exists lat, has_value "CENTRE_MLAT" (snd p) lat /\ beyond h lat.
(** A value as text. *)
Definition shown (c : cell num) (w : str) : Prop :=
  match c with CZ z => integer z w | CF x => w = show x | _ => False end.
(** The columns copied from the input. *)
Definition copied_columns (save_all : bool) (keys : list string) : Prop :=
  forall k, In k keys <-> save_all = true /\ wanted_column true k /\ k <> "DATETIME".
(** The line of an entry: time, the copied values, then boundary latitude, MLT and vorticity. *)
Definition vort_words (keys : list string) (conv : num -> num -> num -> num * num * num) (p : vblock num * vline) (ws : list str) : Prop :=
  exists t lat mlt v date tod extra w1 w2 w3,
    vinstant secs (fst p) t /\ has_value "CENTRE_MLAT" (snd p) lat /\ has_value "MLT" (snd p) mlt /\ has_value "VORTICITY" (snd p) v /\
    ws = date :: tod :: extra ++ [w1; w2; w3] /\ clock t date tod /\
    Forall2 (fun k w => exists c, vvalue pf secs k (fst p) (snd p) c /\ shown c w) keys extra /\
    (let '(nlat, nmlt, nv) := conv lat mlt v in shows 2 nlat w1 /\ shows 6 nmlt w2 /\ shows 6 nv w3).
Definition vchronological (bs : list (vblock num)) : Prop :=
  forall i j b b' t t', (i <= j)%nat -> nth_error bs i = Some b -> nth_error bs j = Some b' -> vinstant secs b t -> vinstant secs b' t' -> t <= t'.
End VortLines.
