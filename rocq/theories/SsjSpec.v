(** Independent vocabulary for the text of boundary files and for DMSP passes. *)
From Coq Require Import String Ascii Reals ZArith QArith List Bool.
From Verif Require Import PyBase TimeModel TimeSpec CycleModel RangeModel CoordModel CoordSpec LoadModel FilesSpec TextSpec OutputSpec LoadSpec SsjModel.
Import ListNotations.
Open Scope string_scope.
Open Scope list_scope.
Open Scope Z_scope.

(** ** Columns of a boundary file *)
Definition text_column (cols : list string) (name : string) : Prop := ~ year_file cols /\ (name = "date" \/ name = "time").
Definition whole_column (cols : list string) (name : string) : Prop := name = "num_sectors" \/ (year_file cols /\ name = "year").
(** A sign or none, then digits. *)
Definition whole_text (w : str) : Prop := exists v s, written v s /\ (w = s \/ w = "-"%char :: s \/ w = "+"%char :: s).
(** The value of a word in a named column. *)
Definition denotes (pf : str -> res num) (cols : list string) (name : string) (w : str) (c : LoadModel.cell) : Prop :=
  (text_column cols name -> exists s v, w = s ++ v /\ c = CStr s /\ (length s <= 50)%nat /\ (v = [] \/ length s = 50%nat)) /\
  (whole_column cols name -> exists z, c = CInt z /\ (forall y, integer y w -> z = y) /\ (~ whole_text w -> z = -1)) /\
  (~ text_column cols name -> ~ whole_column cols name -> exists x, c = CFlt x /\ (forall y, pf w = Ok y -> x = y) /\ (forall e, pf w = Err e -> x = NaN)).
(** The row of the table for the words of a line; words beyond the columns are not used. *)
Definition row_denotes (pf : str -> res num) (cols : list string) (ws : list str) (row : list LoadModel.cell) : Prop :=
  length row = length cols /\
  forall i name, nth_error cols i = Some name -> exists w c, nth_error ws i = Some w /\ nth_error row i = Some c /\ denotes pf cols name w c.

(** ** Files of passes *)
Record crossing := mkX { x_sec : Q; x_lat : num; x_lon : num }.
Record ssj_pass := mkSP { s_hemi : Z; s_fom : num; s_first : bnd -> crossing; s_second : bnd -> crossing }.
Definition in_column (names : list str) (row : list num) (name : string) (v : num) : Prop :=
  exists i, nth_error names i = Some (s2l name) /\ nth_error row i = Some v.
Definition bname (b : bnd) : string := match b with PO => "PO" | EQ => "EQ" end.
(** The row of a pass. *)
Definition row_of (names : list str) (row : list num) (p : ssj_pass) : Prop :=
  (s_hemi p = 1 \/ s_hemi p = -1) /\ (exists q, in_column names row "hemisphere" (Fin q) /\ (q == inject_Z (s_hemi p))%Q) /\
  in_column names row "FOM" (s_fom p) /\
  forall b, let col what i := in_column names row (what ++ " " ++ bname b ++ i)%string in
    col "UTSec" "1" (Fin (x_sec (s_first p b))) /\ col "UTSec" "2" (Fin (x_sec (s_second p b))) /\
    col "SC_GEOCENTRIC_LAT" "1" (x_lat (s_first p b)) /\ col "SC_GEOCENTRIC_LAT" "2" (x_lat (s_second p b)) /\
    col "SC_GEOCENTRIC_LON" "1" (x_lon (s_first p b)) /\ col "SC_GEOCENTRIC_LON" "2" (x_lon (s_second p b)).

Definition newl : ascii := ascii_of_nat 10.
Definition carriage : ascii := ascii_of_nat 13.
Fixpoint commas (fs : list str) : str := match fs with [] => [] | [f] => f | f :: r => f ++ ","%char :: commas r end.
Definition clean (f : str) : Prop := ~ In ","%char f /\ ~ In "#"%char f /\ ~ In newl f /\ ~ In carriage f.
Definition line_end (e : str) : Prop := e = [] \/ e = [newl] \/ e = [carriage; newl].
(** A number, perhaps with blanks around it. *)
Definition number_field (pf : str -> res num) (f : str) (v : num) : Prop :=
  clean f /\ exists a w b, f = a ++ w ++ b /\ blank a /\ word w /\ blank b /\ pf w = Ok v.
Inductive csv_data (pf : str -> res num) : list (list num) -> list str -> Prop :=
| csv_end : csv_data pf [] []
| csv_skip e c rows ls : line_end e -> (c = [] \/ exists t, c = "#"%char :: t) -> csv_data pf rows ls -> csv_data pf rows ((e ++ c) :: ls)
| csv_line fs row e c rows ls : fs <> [] -> Forall2 (number_field pf) fs row -> line_end e -> (c = [] \/ exists t, c = "#"%char :: t) ->
    csv_data pf rows ls -> csv_data pf (row :: rows) ((commas fs ++ e ++ c) :: ls).
(** The lines of an input file: comments, the names of the columns, the rows. *)
Definition csv_text (pf : str -> res num) (names : list str) (rows : list (list num)) (lines : list str) : Prop :=
  exists cs e data, lines = cs ++ (commas names ++ e) :: data /\
    Forall (fun l => exists t, l = "#"%char :: t) cs /\ names <> [] /\ Forall clean names /\ (e = [] \/ e = [newl]) /\
    csv_data pf rows data.
(** The name of an input file: DIR/dmsp-fSAT_P_Q_YYYYMMDD_V... *)
Definition ssj_name (name : str) (sat day : Z) : Prop :=
  exists dir ids p1 p2 d v rest, let t := joined (ids :: p1 :: p2 :: d :: v :: rest) in
    name = dir ++ s2l "/dmsp-f" ++ t /\ Forall FilesSpec.plain (ids :: p1 :: p2 :: d :: v :: rest) /\
    ~ In "/"%char t /\ ~ (exists a b, t = a ++ s2l "dmsp-f" ++ b) /\ integer sat ids /\ compact_date d day.
(** An input file with its satellite, its day and its passes; one that is no table with a value
    for each column name, or has fewer than two rows, has none. *)
Record ssj_file := mkSF { f_sat : Z; f_day : Z; f_passes : list ssj_pass }.
Definition same_width (n : nat) (rows : list (list num)) : Prop := Forall (fun r => length r = n) rows.
Definition passes_file (pf : str -> res num) (file : str * list str) (d : ssj_file) : Prop :=
  ssj_name (fst file) (f_sat d) (f_day d) /\
  exists names rows, csv_text pf names rows (snd file) /\ NoDup names /\ (2 <= length names)%nat /\ (2 <= length rows)%nat /\ same_width (length names) rows /\
    Forall2 (row_of names) rows (f_passes d).
Definition bad_file (pf : str -> res num) (file : str * list str) : Prop :=
  (exists sat day, ssj_name (fst file) sat day) /\
  exists names rows n, csv_text pf names rows (snd file) /\ same_width n rows /\ ((length rows < 2)%nat \/ n <> length names).
(** The files given, the passes of the good ones in order, and the names of the bad ones. *)
Inductive all_files (pf : str -> res num) : list (str * list str) -> list (Z * Z * ssj_pass) -> list str -> Prop :=
| af_nil : all_files pf [] [] []
| af_good f d fs ps bad : passes_file pf f d -> all_files pf fs ps bad ->
    all_files pf (f :: fs) (map (fun p => (f_sat d, f_day d, p)) (f_passes d) ++ ps) bad
| af_bad f fs ps bad : bad_file pf f -> all_files pf fs ps bad -> all_files pf (f :: fs) ps (fst f :: bad).

(** ** What is written *)
(** The microsecond nearest to the middle of the crossings. *)
Definition middle (day : Z) (p : ssj_pass) (b : bnd) (t : Z) : Prop :=
    (Qabs.Qabs (inject_Z (t - day) - inject_Z 1000000 * ((x_sec (s_first p b) + x_sec (s_second p b)) / 2)) <= 1 # 2)%Q.
(** It is a time that a datetime can hold. *)
Definition dated (day : Z) (p : ssj_pass) (b : bnd) : Prop := forall t, middle day p b t -> 0 <= t < max_us.
Definition whole_second (t s : Z) : Prop := s <= t < s + 1000000 /\ s mod 1000000 = 0.
(** A number with three decimals, as [shows] for reals. *)
Definition showsR (x : fl) (s : str) : Prop :=
  match x with
  | Some r => exists z, signed 3 z s /\ (Rabs (r * 1000 - IZR z) <= 1 / 2)%R
  | None => s = s2l "nan"
  end.
(** The place of a crossing on the polar map, if known. *)
Definition place (lat mlt : fl) : option (R * R) :=
  match lat, mlt with Some l, Some m => Some (point (90 - Rabs l) m) | _, _ => None end.
Definition dawnward (P : option (R * R)) : fl := option_map snd P.
Definition noonward (P : option (R * R)) : fl := option_map (fun p => (- fst p)%R) P.
Definition half_way (P Q : option (R * R)) : option (R * R) :=
  match P, Q with Some p, Some q => Some ((fst p + fst q) / 2, (snd p + snd q) / 2)%R | _, _ => None end.
Definition half_apart (P Q : option (R * R)) : fl := match P, Q with Some p, Some q => Some (dist p q / 2)%R | _, _ => None end.
Section Aacgm.
Context (aacgm : num -> num -> Z -> fl * fl).
Definition place_of (t : Z) (x : crossing) : option (R * R) := let m := aacgm (x_lat x) (x_lon x) t in place (fst m) (snd m).
(** The line of a pass: satellite, the second of the middle time, the circle on which the
    crossings are opposite, the figure of merit, and the crossings. *)
Definition pass_words (b : bnd) (q : Z * Z * ssj_pass) (ws : list str) : Prop :=
  let '(sat, day, p) := q in
  exists t sec w date tod r x y f x1 y1 x2 y2,
    ws = [w; date; tod; r; x; y; f; x1; y1; x2; y2] /\ integer sat w /\ middle day p b t /\ whole_second t sec /\ clock sec date tod /\
    let P := place_of t (s_first p b) in let Q := place_of t (s_second p b) in
    showsR (half_apart P Q) r /\ showsR (dawnward (half_way P Q)) x /\ showsR (noonward (half_way P Q)) y /\ shows 3 (s_fom p) f /\
    showsR (dawnward P) x1 /\ showsR (noonward P) y1 /\ showsR (dawnward Q) x2 /\ showsR (noonward Q) y2.
End Aacgm.
