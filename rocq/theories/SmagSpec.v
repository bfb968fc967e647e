(** Independent vocabulary for SuperMAG files: blocks of stations, and how they are written. *)
From Coq Require Import String Ascii ZArith List Bool.
From Verif Require Import PyBase TimeModel TimeSpec TextSpec FilesModel SmagModel.
Import ListNotations.
Open Scope string_scope.
Open Scope list_scope.
Open Scope Z_scope.

Section Blocks.
Context {V : Type} (pf : str -> res V).
(** A station's line, and a block: date and time, indices, stations. *)
Record station := mkSt { st_id : str; st_bn : V; st_be : V; st_bz : V; st_mlt : V; st_mlat : V; st_dec : V; st_sza : V }.
Record block := mkBl { b_year : Z; b_mon : Z; b_day : Z; b_hour : Z; b_min : Z; b_sec : Z; b_index : list (str * Z); b_st : list station }.

(** How they are written.  [count] is the number announced. *)
Definition number (v : V) (s : str) : Prop := pf s = Ok v.
Definition written_date (b : block) (count : Z) (line : str) : Prop :=
  exists ws, spaced ws line /\ Forall2 integer [b_year b; b_mon b; b_day b; b_hour b; b_min b; b_sec b; count] ws.
Definition written_index (p : str * Z) (line : str) : Prop :=
  (fst p = s2l "SML" \/ fst p = s2l "SMU") /\ exists t, integer (snd p) t /\ spaced [fst p; t] line.
Definition written_station (s : station) (line : str) : Prop :=
  exists ws, spaced (st_id s :: ws) line /\
    Forall2 number [st_bn s; st_be s; st_bz s; st_mlt s; st_mlat s; st_dec s; st_sza s] ws.
(** A date and time that exist, and the instant. *)
Definition instant (b : block) (t : Z) : Prop :=
  exists n, calendar_day (b_year b) (b_mon b) (b_day b) n /\ 1 <= b_year b <= 9999 /\
    0 <= b_hour b <= 23 /\ 0 <= b_min b <= 59 /\ 0 <= b_sec b <= 59 /\
    t = day_us n + sec_us ((b_hour b * 60 + b_min b) * 60 + b_sec b).
Definition written_block (b : block) (count : Z) (lines : list str) : Prop :=
  exists dl ils sls, lines = dl :: ils ++ sls /\ written_date b count dl /\ (exists t, instant b t) /\
    Forall2 written_index (b_index b) ils /\ Forall2 written_station (b_st b) sls.
(** A block with the stations it announces, at least one. *)
Definition whole_block (b : block) (lines : list str) : Prop := written_block b (zlen (b_st b)) lines /\ b_st b <> [].
(** A header: lines up to the first one with the rule. *)
Definition header (hs : list str) : Prop :=
  exists h r, hs = h ++ [r] /\ Forall (fun l => contains rule l = false) h /\ contains rule r = true.

(** The value of an index in a block: the last one given, else the fill value. *)
Inductive index_value (k : str) : list (str * Z) -> Z -> Prop :=
| iv_none l : (forall z, ~ In (k, z) l) -> index_value k l 999999
| iv_last l1 l2 z : (forall z', ~ In (k, z') l2) -> index_value k (l1 ++ (k, z) :: l2) z.
(** The value a column has for a station of a block. *)
Definition value (nanfill : V -> V) (k : string) (b : block) (s : station) (c : cell V) : Prop :=
  (k = "YEAR" /\ c = CZ (b_year b)) \/ (k = "MONTH" /\ c = CZ (b_mon b)) \/ (k = "DAY" /\ c = CZ (b_day b)) \/
  (k = "HOUR" /\ c = CZ (b_hour b)) \/ (k = "MIN" /\ c = CZ (b_min b)) \/ (k = "SEC" /\ c = CZ (b_sec b)) \/
  (k = "DATETIME" /\ exists t, instant b t /\ c = CT t) \/ (k = "NST" /\ c = CZ (zlen (b_st b))) \/
  (k = "SML" /\ exists z, index_value (s2l "SML") (b_index b) z /\ c = CZ z) \/
  (k = "SMU" /\ exists z, index_value (s2l "SMU") (b_index b) z /\ c = CZ z) \/
  (k = "STID" /\ c = CS (st_id s)) \/ (k = "BN" /\ c = CF (nanfill (st_bn s))) \/ (k = "BE" /\ c = CF (nanfill (st_be s))) \/
  (k = "BZ" /\ c = CF (nanfill (st_bz s))) \/ (k = "MLT" /\ c = CF (nanfill (st_mlt s))) \/ (k = "MLAT" /\ c = CF (st_mlat s)) \/
  (k = "DEC" /\ c = CF (nanfill (st_dec s))) \/ (k = "SZA" /\ c = CF (nanfill (st_sza s))).
Definition columns : list string :=
  ["YEAR"; "MONTH"; "DAY"; "HOUR"; "MIN"; "SEC"; "DATETIME"; "NST"; "SML"; "SMU"; "STID"; "BN"; "BE"; "BZ"; "MLT"; "MLAT"; "DEC"; "SZA"].
(** The lines of data of a file in order, each with its block. *)
Definition stations_of (bs : list block) : list (block * station) := flat_map (fun b => map (fun s => (b, s)) (b_st b)) bs.
End Blocks.
Arguments station : clear implicits. Arguments block : clear implicits.
