(** Vocabulary for the coordinate systems of vectors and their locations (C127-C132),
    independent of the definitions in LocModel: coordinate systems and their names,
    universal time, longitude and local time, the conversions of aacgmv2. *)
From Coq Require Import Reals ZArith List Bool String.
From Verif Require Import PyBase PyString RangeModel RangeSpec LocModel.
Import ListNotations.
Open Scope R_scope.

Inductive system := Magnetic | Geocentric | Geodetic.
Definition name (c : system) : string :=
  match c with Magnetic => "magnetic" | Geocentric => "geocentric" | Geodetic => "geodetic" end.
(** A name in any mixture of capitals and small letters. *)
Definition called (c : system) (w : string) : Prop := lower w = name c.

(** The hour of the day of a time in microseconds. *)
Definition hour_of (t : Z) (u : R) : Prop :=
  exists day us : Z, (t = day * 86400000000 + us /\ 0 <= us < 86400000000)%Z /\ u = IZR us / 3600000000.

(** The geographic longitude with local time [lt] at time [t], and the local time of a
    longitude; NaN for NaN. *)
Definition longitude_at (t : Z) (lt lon : fl) : Prop :=
  match lt, lon with
  | Some h, Some g => exists u, hour_of t u /\ -180 <= g < 360 /\ shifted 360 ((h - u) * 15) g
  | None, None => True
  | _, _ => False
  end.
Definition local_time_at (t : Z) (lon lt : fl) : Prop :=
  match lon, lt with
  | Some g, Some h => exists u, hour_of t u /\ 0 <= h < 24 /\ shifted 24 (g / 15 + u) h
  | None, None => True
  | _, _ => False
  end.

(** Method codes of aacgmv2. *)
Definition code (tr : string) (c : system) (way : string) : string :=
  match c with Geocentric => tr ++ "|GEOCENTRIC|" ++ way | _ => tr ++ "|" ++ way end.

(** Which locations are converted at which times. *)
Inductive at_times : bool -> list site -> times -> list (site * Z) -> Prop :=
| at_one single ps t : at_times single ps (One t) (map (fun p => (p, t)) ps)
| at_replicated p ts : at_times true [p] (Many ts) (map (fun t => (p, t)) ts)
| at_matched prs : at_times false (map fst prs) (Many (map snd prs)) prs.

Section Aacgm.
Context (g2a a2g : string -> fl -> fl -> fl -> Z -> fl * fl) (mlt2lon : fl -> Z -> fl).
(** The location [p] in system [c] is at [p'] in magnetic coordinates at time [t]. *)
Definition magnetic_at (tr : string) (c : system) (p : site) (t : Z) (p' : site) : Prop :=
  exists lon, longitude_at t (pl_lt p) lon /\
    g2a (code tr c "G2A") (pl_lat p) lon (pl_h p) t = (pl_lat p', pl_lt p') /\ pl_h p' = pl_h p.
(** The magnetic location [p] is at [p'] in system [c] at time [t]. *)
Definition geographic_at (tr : string) (c : system) (p : site) (t : Z) (p' : site) : Prop :=
  exists lon, a2g (code tr c "A2G") (pl_lat p) (mlt2lon (pl_lt p) t) (pl_h p) t = (pl_lat p', lon) /\
    local_time_at t lon (pl_lt p') /\ pl_h p' = pl_h p.

(** The two conversions undo each other at a location: aacgmv2 finds the magnetic
    position of the geographic one, and from it the same latitude and longitude. *)
Definition invertible_at (tr : string) (c : system) (p : site) (t : Z) : Prop :=
  forall lon, longitude_at t (pl_lt p) (Some lon) ->
    let m := g2a (code tr c "G2A") (pl_lat p) (Some lon) (pl_h p) t in
    exists lon', a2g (code tr c "A2G") (fst m) (mlt2lon (snd m) t) (pl_h p) t = (pl_lat p, Some lon') /\ shifted 360 lon lon'.
End Aacgm.
