(** Model of ocbpy/boundaries/dmsp_ssj_files.py: [fetch_ssj_boundary_files] (45-172) and
    [format_ssj_boundary_files] (227-431); [evaluate_dmsp_boundary_file] is in FilesModel.v.

    The file system is the list of names present in the output directory; zenodo_get, the
    zip archive and the AACGM conversion are parameters.  Archives hold plain files without
    directories.  Paths are strings of 8-bit characters with "/" as separator. *)
From Coq Require Import String Ascii Reals ZArith List Bool.
From Verif Require Import PyBase PyString TimeModel RangeModel FilesModel.
Import ListNotations.
Open Scope string_scope.
Open Scope list_scope.

(** ** The circle of a pass *)
(** Lines 397-399, one crossing: magnetic latitude and local time to x (towards dawn) and y
    (towards noon).  Floats are reals. *)
Definition crossing_xy (lat mlt : R) : res (R * R) :=
  th <- hr2rad (Some (mlt - 6)%R) (2 * PI) ;;
  match th with
  | Some t => Ok (((90 - Rabs lat) * cos t)%R, ((90 - Rabs lat) * sin t)%R)
  | None => Err ValueError  (* NaN: does not arise from a real *)
  end.
(** Lines 397-406: radius, centre and both crossings as written. *)
Record pass := mkPass { p_r : R; p_x : R; p_y : R; p_x1 : R; p_y1 : R; p_x2 : R; p_y2 : R }.
Definition pass_circle (lat1 mlt1 lat2 mlt2 : R) : res pass :=
  a <- crossing_xy lat1 mlt1 ;;
  b <- crossing_xy lat2 mlt2 ;;
  let '(x1, y1) := a in
  let '(x2, y2) := b in
  Ok (mkPass (sqrt ((x1 - x2) ^ 2 + (y1 - y2) ^ 2) / 2)%R (1 / 2 * (x1 + x2))%R (1 / 2 * (y1 + y2))%R x1 y1 x2 y2).

(** ** Paths *)
(** [os.path.split]: the part after the last slash, and the rest without trailing slashes
    unless it consists of slashes only. *)
Definition slash : ascii := "/"%char.
Fixpoint drop_while (f : ascii -> bool) (s : str) : str :=
  match s with [] => [] | c :: t => if f c then drop_while f t else s end.
Fixpoint take_while (f : ascii -> bool) (s : str) : str :=
  match s with [] => [] | c :: t => if f c then c :: take_while f t else [] end.
Definition basename (p : str) : str := rev (take_while (fun c => negb (Ascii.eqb c slash)) (rev p)).
Definition dirname (p : str) : str :=
  let head := rev (drop_while (fun c => negb (Ascii.eqb c slash)) (rev p)) in
  let cut := rev (drop_while (Ascii.eqb slash) (rev head)) in
  match cut with [] => head | _ => cut end.

(** ** format_ssj_boundary_files *)
(** A file as read in lines 345-356: its name, whether the number of columns agrees with
    the header, and the rows (hemisphere and the other values).  The array has rank 2 only
    for two or more rows. *)
Record csv (A : Type) := mkCsv { c_name : str; c_width_ok : bool; c_rows : list (Z * A) }.
Arguments mkCsv {A}. Arguments c_name {A}. Arguments c_width_ok {A}. Arguments c_rows {A}.
(** Lines 382-421, which line goes where: each row is written once per boundary, so one
    list per hemisphere is kept; [fpout[hh]] is a KeyError for a hemisphere other than 1 and
    -1.  The header is taken to name the columns used in lines 360-378. *)
Record outputs (A : Type) := mkOut { o_north : list A; o_south : list A; o_bad : list str }.
Arguments mkOut {A}. Arguments o_north {A}. Arguments o_south {A}. Arguments o_bad {A}.
Fixpoint write_rows {A} (o : outputs A) (rows : list (Z * A)) : res (outputs A) :=
  match rows with
  | [] => Ok o
  | (h, d) :: t =>
      if (h =? 1)%Z then write_rows (mkOut (o_north o ++ [d]) (o_south o) (o_bad o)) t
      else if (h =? -1)%Z then write_rows (mkOut (o_north o) (o_south o ++ [d]) (o_bad o)) t
      else Err KeyError
  end.
(** Line 356. *)
Definition rank2 {A} (f : csv A) : bool := match c_rows f with [_] | [] => false | _ => true end.
(** Lines 336-421. *)
Fixpoint write_files {A} (o : outputs A) (files : list (csv A)) : res (outputs A) :=
  match files with
  | [] => Ok o
  | f :: t =>
      if rank2 f && c_width_ok f then o' <- write_rows o (c_rows f) ;; write_files o' t
      else write_files (mkOut (o_north o) (o_south o) (o_bad o ++ [c_name f])) t
  end.
(** Lines 287-296 and 336-431, for the existing files among the arguments. *)
Definition format_passes {A} (files : list (csv A)) : res (outputs A) :=
  match files with [] => Err ValueError | _ => write_files (mkOut [] [] []) files end.

(** [os.path.commonprefix] of a nonempty list. *)
Fixpoint common2 (a b : str) : str :=
  match a, b with
  | x :: a', y :: b' => if Ascii.eqb x y then x :: common2 a' b' else []
  | _, _ => []
  end.
Definition commonprefix (l : list str) : str :=
  match l with [] => [] | a :: t => fold_left common2 t a end.
(** Lines 309-321: the parts of an input name and the name of an output file. *)
Definition name_parts (p : str) : list str := split "_" (let b := basename p in after_last (length b) "dmsp-f" b).
Definition part (l : list str) (i : nat) : res str := match nth_error l i with Some s => Ok s | None => Err IndexError end.
Definition out_name (csv_files : list str) (hemi_word ext : str) : res str :=
  match csv_files with
  | [] => Err ValueError
  | first :: _ =>
      let sec := name_parts (last csv_files first) in
      sdate <- part (name_parts first) 3 ;;
      edate <- part sec 3 ;;
      inst <- part sec 1 ;;
      version <- part sec 4 ;;
      Ok (before "-f" (commonprefix csv_files) ++ s2l "-" ++ inst ++ s2l "_" ++ hemi_word ++ s2l "_" ++ sdate ++ s2l "_" ++ edate
          ++ s2l "_" ++ version ++ ext)
  end.

(** ** fetch_ssj_boundary_files *)
(** Where [sys.stdout] points to. *)
Inductive stream := Console | Captured | Other.
Record world := mkWorld { w_stdout : stream; w_files : list str }.
(** zenodo_get raises, or prints a message and leaves files in the directory. *)
Inductive download := DRaise (e : exn) | DDone (msg : str) (created : list str).
Fixpoint after_word (k : str) (l : list str) : option str :=
  match l with [] => None | a :: t => if str_eqb a k then match t with b :: _ => Some b | [] => None end else after_word k t end.
(** Lines 138-143: the [while] loop over [os.path.split]. *)
Fixpoint archive_of (fuel : nat) (head tail : str) : res str :=
  match fuel with
  | O => Err OutOfFuel
  | S k => match find ".zip" tail with
           | Some (S _) => Ok tail
           | _ => archive_of k (dirname head) (basename head)
           end
  end.
Definition remove (n : str) (l : list str) : list str := filter (fun a => negb (str_eqb a n)) l.
Definition add (n : str) (l : list str) : list str := if member n l then l else l ++ [n].
(** Lines 152-165: extraction.  An exception leaves what was extracted so far. *)
Fixpoint extract (choose : str -> res bool) (names : list str) (files out : list str) : list str * res (list str) :=
  match names with
  | [] => (files, Ok out)
  | n :: t =>
      match choose n with
      | Err e => (files, Err e)
      | Ok true => extract choose t (add n files) (out ++ [n])
      | Ok false => extract choose t files out
      end
  end.
(** Lines 45-172.  [zip] gives the names in an archive; the output names are given without
    the directory. *)
Definition fetch (fuel : nat) (w : world) (dir_ok : bool) (dl : download) (zip : str -> list str) (now : Z)
  (stime etime : option Z) (sat_nums : option (list Z)) (rm_temp : bool) : world * res (list str) :=
  let get_all := match sat_nums, stime, etime with None, None, None => true | _, _, _ => false end in
  let sats := match sat_nums with None => [16; 17; 18]%Z | Some l => l end in
  if negb (forallb (fun s => existsb (Z.eqb s) [16; 17; 18]%Z) sats) then (w, Err ValueError)
  else if negb dir_ok then (w, Err ValueError)
  else
    match dl with
    | DRaise e => (mkWorld Captured (w_files w), Err e)
    | DDone msg created =>
        let w1 := mkWorld Console (fold_left (fun fs n => add n fs) created (w_files w)) in
        if negb (contains "Checksum is correct" msg) && negb (contains "already downloaded correctly" msg) then (w1, Err IOError)
        else if negb (member "md5sums.txt" (w_files w1)) then (w1, Err IOError)
        else
          let w2 := mkWorld Console (remove "md5sums.txt" (w_files w1)) in
          match after_word "Link:" (words [] msg) with
          | None => (w2, Err IOError)
          | Some link =>
              match archive_of fuel (dirname link) (basename link) with
              | Err e => (w2, Err e)
              | Ok archive =>
                  if negb (member archive (w_files w2)) then (w2, Err IOError)
                  else
                    let choose := if get_all then fun _ => Ok true
                                  else fun n => evaluate_dmsp_boundary_file now n stime etime sats in
                    match extract choose (zip archive) (w_files w2) [] with
                    | (fs, Err e) => (mkWorld Console fs, Err e)
                    | (fs, Ok out) => (mkWorld Console (if rm_temp then remove archive fs else fs), Ok out)
                    end
              end
          end
    end.
