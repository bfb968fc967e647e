(** Independent vocabulary for vorticity files: blocks of entries, and how they are written. *)
From Coq Require Import String Ascii ZArith List Bool.
From Verif Require Import PyBase TimeModel TimeSpec TextSpec FilesModel SmagModel SmagSpec.
Import ListNotations.
Open Scope string_scope.
Open Scope list_scope.
Open Scope Z_scope.

(** The three lines of an entry, by the names of their columns. *)
Definition names1 : list string := ["R1BM1"; "R1BM2"; "R2BM1"; "R2BM2"; "AREA"; "VORTICITY"; "MLT"].
Definition names2 : list string :=
  ["GFLG"; "CENTRE_GLAT"; "CENTRE_GLON"; "C1_GLAT"; "C1_GLON"; "C2_GLAT"; "C2_GLON"; "C3_GLAT"; "C3_GLON"; "C4_GLAT"; "C4_GLON"].
Definition names3 : list string :=
  ["MFLG"; "CENTRE_MLAT"; "CENTRE_MLON"; "C1_MLAT"; "C1_MLON"; "C2_MLAT"; "C2_MLON"; "C3_MLAT"; "C3_MLON"; "C4_MLAT"; "C4_MLON"].
(** The columns returned: all but the two flags, or those needed. *)
Definition wanted_column (save_all : bool) (k : string) : Prop :=
  In k ["YEAR"; "MONTH"; "DAY"; "UTH"; "DATETIME"; "VORTICITY"; "MLT"; "CENTRE_MLAT"] \/
  (save_all = true /\ In k (names1 ++ names2 ++ names3) /\ k <> "GFLG" /\ k <> "MFLG").

Section Blocks.
Context {V : Type} (pf : str -> res V) (secs : V -> res Z).
(** The words of an entry's lines; a block: date, hour of the day and entries. *)
Record vline := mkEn { e1 : list str; e2 : list str; e3 : list str }.
Record vblock := mkVb { vb_year : Z; vb_mon : Z; vb_day : Z; vb_hour : V; vb_ent : list vline }.
Definition short (v : Z) (s : str) : Prop := written v s /\ (length s <= 2)%nat.
Definition written_vdate (b : vblock) (line : str) : Prop :=
  exists wy wm wd wh, spaced [wy; wm; wd; wh] line /\ date4 wy (vb_year b) /\ short (vb_mon b) wm /\ short (vb_day b) wd /\ number pf (vb_hour b) wh.
Definition written_count (n : Z) (line : str) : Prop := exists w, spaced [w] line /\ integer n w.
(** The time: the hours truncated to seconds, added to the day. *)
Definition vinstant (b : vblock) (t : Z) : Prop :=
  exists n s last, calendar_day (vb_year b) (vb_mon b) (vb_day b) n /\ secs (vb_hour b) = Ok s /\ t = day_us n + sec_us s /\
    0 <= t /\ calendar_day 9999 12 31 last /\ t < day_us (last + 1).
(** Name and word of everything in an entry. *)
Definition items (e : vline) : list (string * str) := combine names1 (e1 e) ++ combine names2 (e2 e) ++ combine names3 (e3 e).
Definition written_entry (save_all : bool) (e : vline) (lines : list str) : Prop :=
  (exists l1 l2 l3, lines = [l1; l2; l3] /\ spaced (e1 e) l1 /\ spaced (e2 e) l2 /\ spaced (e3 e) l3) /\
  length (e1 e) = length names1 /\ length (e2 e) = length names2 /\ length (e3 e) = length names3 /\
  forall k w, In (k, w) (items e) -> wanted_column save_all k -> exists v, number pf v w.
Definition written_vblock (save_all : bool) (b : vblock) (count : Z) (lines : list str) : Prop :=
  exists dl cl els, lines = dl :: cl :: concat els /\ written_vdate b dl /\ (exists t, vinstant b t) /\ written_count count cl /\
    Forall2 (written_entry save_all) (vb_ent b) els.
Definition whole_vblock (save_all : bool) (b : vblock) (lines : list str) : Prop := written_vblock save_all b (zlen (vb_ent b)) lines.
(** A header line: its first word is "#". *)
Definition vheader (line : str) : Prop := exists ws, spaced (s2l "#" :: ws) line.
(** The value a column has for an entry of a block. *)
Definition vvalue (k : string) (b : vblock) (e : vline) (c : cell V) : Prop :=
  (k = "YEAR" /\ c = CZ (vb_year b)) \/ (k = "MONTH" /\ c = CZ (vb_mon b)) \/ (k = "DAY" /\ c = CZ (vb_day b)) \/
  (k = "UTH" /\ c = CF (vb_hour b)) \/ (k = "DATETIME" /\ exists t, vinstant b t /\ c = CT t) \/
  (exists w v, In (k, w) (items e) /\ number pf v w /\ c = CF v).
Definition entries_of (bs : list vblock) : list (vblock * vline) := flat_map (fun b => map (fun e => (b, e)) (vb_ent b)) bs.
End Blocks.
Arguments vblock : clear implicits.
