(** Independent vocabulary for the boundary directory: the naming convention of the files, the
    periods of the known instruments, and what fits a request. *)
From Coq Require Import String Ascii ZArith List Bool.
From Verif Require Import PyBase TimeModel TimeSpec FilesModel.
Import ListNotations.
Open Scope string_scope.
Open Scope list_scope.
Open Scope Z_scope.

(** Parts joined by underscores. *)
Fixpoint joined (ps : list str) : str :=
  match ps with
  | [] => []
  | [p] => p
  | p :: t => p ++ "_"%char :: joined t
  end.
Definition plain (p : str) : Prop := ~ In "_"%char p.
Definition hemi_word (h : Z) (w : str) : Prop := (h = 1 /\ w = s2l "north") \/ (h = -1 /\ w = s2l "south").

(** The date YYYYMMDD, and its midnight. *)
Definition compact_date (s : str) (t : Z) : Prop :=
  exists y m d n sy sm sd, calendar_day y m d n /\ date4 sy y /\ date2 sm m /\ date2 sd d /\
    s = sy ++ sm ++ sd /\ t = day_us n.
Definition midnight (y m d t : Z) : Prop := exists n, calendar_day y m d n /\ t = day_us n.

(** Periods covered by the known instruments. *)
Definition known_span (tomorrow : Z) (inst : str) (s e : Z) : Prop :=
  (inst = s2l "amp" /\ midnight 2010 1 1 s /\ midnight 2022 1 1 e) \/
  (inst = s2l "si12" /\ midnight 2000 5 4 s /\ midnight 2002 11 1 e) \/
  (inst = s2l "si13" /\ midnight 2000 5 3 s /\ midnight 2002 11 1 e) \/
  (inst = s2l "wic" /\ midnight 2000 5 4 s /\ midnight 2002 11 1 e) \/
  (inst = s2l "image" /\ midnight 2000 5 3 s /\ midnight 2002 11 1 e) \/
  (inst = s2l "dmsp-ssj" /\ midnight 2010 1 1 s /\ e = tomorrow).
Definition known : list str := [s2l "image"; s2l "amp"; s2l "si13"; s2l "si12"; s2l "wic"; s2l "dmsp-ssj"].

(** INSTRUMENT_HEMISPHERE_START_END_*.BOUND, in any case; known instruments need no dates. *)
Definition describes (tomorrow : Z) (bound name inst : str) (h s e : Z) : Prop :=
  exists w parts c, lowers name = joined (inst :: w :: parts) ++ c :: lowers bound /\
    Forall plain (inst :: w :: parts) /\ hemi_word h w /\
    (known_span tomorrow inst s e \/
     ~ In inst known /\ exists a b rest, parts = a :: b :: rest /\ compact_date a s /\ compact_date b e).

(** A regular file of the directory with the extension of the boundary. *)
Definition candidate (bound : str) (listing : list entry) (name : str) : Prop :=
  In (name, true) listing /\ ~ (exists a b, name = a ++ s2l ".py" ++ b) /\ ~ (exists a b, name = a ++ s2l "README" ++ b) /\
  exists stem ext, name = stem ++ ext /\ length ext = 3%nat /\ lowers ext = lowers bound.
(** All of them follow the convention. *)
Definition tidy (tomorrow : Z) (bound : str) (listing : list entry) : Prop :=
  forall name, candidate bound listing name -> exists inst h s e, describes tomorrow bound name inst h s e.

(** The instrument of a file answers the instrument requested. *)
Definition answers (instrument inst : str) : Prop :=
  (instrument = [] /\ In inst known) \/
  (instrument = s2l "ampere" /\ inst = s2l "amp") \/
  (instrument = s2l "image" /\ In inst [s2l "image"; s2l "si12"; s2l "si13"; s2l "wic"]) \/
  (instrument <> [] /\ instrument <> s2l "ampere" /\ instrument <> s2l "image" /\ inst = instrument).
Definition in_period (stime etime : option Z) (s e : Z) : Prop :=
  forall a b, stime = Some a -> etime = Some b -> a <= e /\ s <= b.
(** A file that fits the request. *)
Definition fits (tomorrow : Z) (bound : str) (listing : list entry) (stime etime : option Z) (hemisphere : Z)
  (instrument name inst : str) (s e : Z) : Prop :=
  candidate bound listing name /\ describes tomorrow bound name inst hemisphere s e /\
  answers instrument inst /\ in_period stime etime s e.

(** The instrument [a] is preferred to [b]. *)
Definition preferred (a b : str) : Prop := exists l1 l2 l3, known = l1 ++ a :: l2 ++ b :: l3.
(** The name under which boundaries of the instrument are loaded. *)
Definition loaded_as (inst long : str) : Prop :=
  (inst = s2l "amp" /\ long = s2l "ampere") \/
  (In inst [s2l "si12"; s2l "si13"; s2l "wic"] /\ long = s2l "image") \/
  (~ In inst [s2l "amp"; s2l "si12"; s2l "si13"; s2l "wic"] /\ long = inst).
