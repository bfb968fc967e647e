(** Model of ocbpy/instruments/general.py: [load_ascii_data] (54-259).

    A file is the list of its lines.  [float] on text is the parameter [pf]; values are of an
    arbitrary type [V], and [toQ] is the number of a value used as seconds of day (an error
    for NaN and infinities).  Of the options in [gft_kwargs] only [comments] is modelled:
    the columns are separated by white space.  The lists given by the caller are changed by
    the call: [int_cols] and [header] after it are part of the result (for a call that
    raises, what it left in them is not modelled).  A list left out is a new empty list.
    Format parts are not the word "datetime_fmt", and [hsplit] is a single character. *)
From Coq Require Import String Ascii ZArith QArith List Bool.
From Verif Require Import PyBase PyString TimeModel FilesModel SmagModel.
Import ListNotations.
Open Scope string_scope.
Open Scope list_scope.
Open Scope Z_scope.

(** [s.strip()]. *)
Fixpoint lstrip (s : str) : str := match s with c :: t => if isspace c then lstrip t else s | [] => [] end.
Definition strip (s : str) : str := rev (lstrip (rev (lstrip s))).

(** The arguments (54-56).  [q_comments]: [None] if the key is missing from [gft_kwargs]. *)
Record request := mkReq {
  q_hlines : nat; q_comments : option (option str); q_hsplit : option ascii; q_dtcols : list Z; q_fmt : option str;
  q_int : list Z; q_str : list Z; q_max : Z; q_header : list str }.

(** Lines 138-145: the positions added to [int_cols]. *)
Definition int_parts (fmt : str) : res (list Z) :=
  let parts := split " " fmt in
  let one (name : str) :=
    match find name (upper fmt) with
    | Some i => n <- index (firstn (length name) (skipn i fmt)) parts ;; Ok [Z.of_nat n]
    | None => Ok []
    end in
  y <- one "YEAR" ;; s <- one "SOY" ;; Ok (y ++ s).

(** Lines 173-180 and 192-198: column types. *)
Inductive ctype := TFloat | TInt | TStr (n : Z).
Fixpoint set_nth {A} (i : nat) (a : A) (l : list A) : list A :=
  match l, i with [], _ => [] | _ :: t, O => a :: t | b :: t, S i' => b :: set_nth i' a t end.
Definition setE {A} (l : list A) (i : Z) (a : A) : res (list A) :=
  if (0 <=? i) && (i <? zlen l) then Ok (set_nth (Z.to_nat i) a l)
  else if (- zlen l <=? i) && (i <? 0) then Ok (set_nth (Z.to_nat (zlen l + i)) a l)
  else Err IndexError.
Fixpoint set_types (cols : list Z) (c : ctype) (l : list ctype) : res (list ctype) :=
  match cols with [] => Ok l | i :: r => l' <- setE l i c ;; set_types r c l' end.
Definition zmember (z : Z) (l : list Z) : bool := existsb (Z.eqb z) l.
Fixpoint set_dates (ints : list Z) (parts : list str) (i : Z) (cols : list Z) (c : ctype) (l : list ctype) : res (list ctype) :=
  match cols with
  | [] => Ok l
  | icol :: r =>
      l' <- (if zmember icol ints then Ok l
             else p <- getE parts i ;; if contains "SOD" (upper p) then Ok l else setE l icol c) ;;
      set_dates ints parts (i + 1) r c l'
  end.

(** Lines 183-191: the key of the times. *)
Definition dt_keys : list str := map s2l ["datetime"; "DATETIME"; "DT"; "dt"].
Fixpoint free_key (ks : list str) (names : list str) : res str :=
  match ks with [] => Err IndexError | k :: r => if member k names then free_key r names else Ok k end.
(** [{okey: list() for okey in keylist}] (171). *)
Fixpoint uniq (seen : list str) (l : list str) : list str :=
  match l with [] => [] | k :: r => if member k seen then uniq seen r else k :: uniq (k :: seen) r end.

(** [np.genfromtxt] (203) on the lines after the header, and its shape once squeezed. *)
Inductive arr := Arr2 (rows : list (list str)) | Arr1 (l : list str) | Arr0 (s : str).
Definition cut_comment (com : option str) (line : str) : str := match com with Some c => before c line | None => line end.
Definition genfromtxt (com : option str) (lines : list str) : res arr :=
  let rows := filter (fun r => match r with [] => false | _ => true end) (map (fun l => words [] (cut_comment com l)) lines) in
  match rows with
  | [] => Ok (Arr1 [])
  | r0 :: _ =>
      if forallb (fun r => (length r =? length r0)%nat) rows then
        match rows, r0 with
        | [_], [s] => Ok (Arr0 s)
        | [_], _ => Ok (Arr1 r0)
        | _, [_] => Ok (Arr1 (concat rows))
        | _, _ => Ok (Arr2 rows)
        end
      else Err ValueError
  end.

Definition time_formats : list str := map s2l ["H"; "I"; "p"; "M"; "S"; "f"; "z"; "Z"].
Definition max_int64 : Z := 9223372036854775807.

Section Float.
Context {V : Type} (pf : str -> res V) (toQ : V -> res Q).
(** [x.astype(t)] of a text. *)
Definition cast (t : ctype) (s : str) : res (cell V) :=
  match t with
  | TFloat => v <- pf s ;; Ok (CF v)
  | TInt => z <- py_int s ;; if (- max_int64 - 1 <=? z) && (z <=? max_int64) then Ok (CZ z) else Err OverflowError
  | TStr n => Ok (CS (firstn (Z.to_nat n) s))
  end.

(** Lines 224-236: the key and the value of one of the time columns.  A float [year] or
    [soy] does not arise. *)
Definition input_of (part : str) (c : cell V) : res (str * cell V) :=
  match part with
  | "%"%char :: r =>
      match r with
      | [] => Err IndexError
      | d :: _ => Ok (if member [d] time_formats then s2l "tod" else s2l "date", c)
      end
  | _ =>
      let k := lowers part in
      if str_eqb k "year" || str_eqb k "soy" then
        match c with CZ z => Ok (k, CZ z) | CS s => z <- py_int s ;; Ok (k, CZ z) | _ => Err TypeError end
      else if str_eqb k "sod" then
        match c with CS s => v <- pf s ;; Ok (k, CF v) | _ => Ok (k, c) end
      else Ok (k, c)
  end.
(** Lines 238-245. *)
Definition add_input (kc : str * cell V) (d : list (str * cell V)) : res (list (str * cell V)) :=
  match lookup (fst kc) d with
  | None => Ok (setkey (fst kc) (snd kc) d)
  | Some (CS a) => match snd kc with CS b => Ok (setkey (fst kc) (CS (a ++ " "%char :: b)) d) | _ => Err TypeError end
  | Some _ => Err TypeError
  end.
(** Lines 221-245, on one row. *)
Fixpoint inputs (row : list str) (types : list ctype) (parts : list str) (i : Z) (cols : list Z) (d : list (str * cell V)) : res (list (str * cell V)) :=
  match cols with
  | [] => Ok d
  | dcol :: r =>
      s <- getE row dcol ;; t <- getE types dcol ;; c <- cast t s ;;
      p <- getE parts i ;; kc <- input_of p c ;; d' <- add_input kc d ;;
      inputs row types parts (i + 1) r d'
  end.
(** Line 248: [convert_time] with these keywords.  [None] for a [yyddd] that is no text. *)
Definition known_inputs : list str := map s2l ["year"; "soy"; "yyddd"; "date"; "tod"; "sod"].
Definition int_input (c : option (cell V)) : option Z := match c with Some (CZ z) => Some z | _ => None end.
Definition row_time (d : list (str * cell V)) (fmt : str) : res Z :=
  if negb (forallb (fun p => member (fst p) known_inputs) d) then Err TypeError
  else
    let year := int_input (lookup "year" d) in
    let soy := option_map inject_Z (int_input (lookup "soy" d)) in
    sod <- match lookup "sod" d with
           | None => Ok None
           | Some (CF v) => q <- toQ v ;; Ok (Some q)
           | Some (CZ z) => Ok (Some (inject_Z z))
           | Some _ => Err TypeError
           end ;;
    yyddd <- match lookup "yyddd" d, year, soy with
             | _, Some _, Some _ => Ok None
             | None, _, _ => Ok None
             | Some (CS s), _, _ => Ok (Some s)
             | Some _, _, _ => Err ValueError
             end ;;
    tod <- match lookup "tod" d, year, soy with
           | _, Some _, Some _ => Ok None
           | None, _, _ => Ok None
           | Some (CS s), _, _ => Ok (Some s)
           | Some _, _, _ => Err ValueError
           end ;;
    date <- match lookup "date" d, year, soy with
            | _, Some _, Some _ => Ok None
            | None, _, _ => Ok None
            | Some (CS s), _, _ => Ok (Some s)
            | Some (CZ z), _, _ => match tod, yyddd with Some _, None => Err ValueError | _, _ => Ok (Some (fmt_d z)) end
            | Some _, _, _ => Err ValueError
            end ;;
    convert_time year soy yyddd sod date tod fmt.

(** Lines 217-259: one row of a 2-D array, the key of the times being [dk]. *)
Definition row_cell (q : request) (types : list ctype) (dk : option str) (row : list str) (num : Z) (name : str) : res (cell V) :=
  match dk, q_fmt q with
  | Some k, Some fmt =>
      if str_eqb name k then
        d <- inputs row types (split " " fmt) 0 (q_dtcols q) [] ;; t <- row_time d fmt ;; Ok (CT t)
      else s <- getE row num ;; t <- getE types num ;; cast t s
  | _, _ => s <- getE row num ;; t <- getE types num ;; cast t s
  end.
(** The same, when [line] is a text: [line[num]] is a character, which has no [astype]. *)
Definition text_cell (q : request) (types : list ctype) (dk : option str) (line : str) (num : Z) (name : str) : res (cell V) :=
  match dk with
  | Some k =>
      if str_eqb name k then
        match q_dtcols q with dcol :: _ => _ <- getE line dcol ;; Err AttributeError | [] => Err TypeError end
      else _ <- getE line num ;; t <- getE types num ;; cast t line
  | None => _ <- getE line num ;; t <- getE types num ;; cast t line
  end.
Fixpoint one_line (f : Z -> str -> res (cell V)) (num : Z) (names : list str) (t : table V) : res (table V) :=
  match names with
  | [] => Ok t
  | name :: r => c <- f num name ;; t' <- append name c t ;; one_line f (num + 1) r t'
  end.
Fixpoint all_lines {L} (f : L -> Z -> str -> res (cell V)) (names : list str) (lines : list L) (t : table V) : res (table V) :=
  match lines with [] => Ok t | l :: r => t' <- one_line (f l) 0 names t ;; all_lines f names r t' end.

(** Lines 158-171: the names of the columns. *)
Definition names_of (q : request) (keyheader : str) : list str :=
  let k1 := match q_comments q with Some (Some c) => before c keyheader | _ => keyheader end in
  let k2 := strip (filter (fun c => negb (Ascii.eqb c "#")) k1) in
  match q_hsplit q with
  | None => words [] k2
  | Some c => filter (fun w => match w with [] => false | _ => true end) (split c k2)
  end.
(** Lines 111-259: the header, the data, and [int_cols] after the call. *)
Record loaded := mkLoaded { o_header : list str; o_data : table V; o_int : list Z }.
Definition load_ascii (q : request) (isfile : bool) (size : Z) (lines : list str) : res loaded :=
  if negb (test_file isfile size) then Ok (mkLoaded (q_header q) [] (q_int q))
  else
    let parts := match q_fmt q with Some f => split " " f | None => [] end in
    added <- match q_fmt q with Some f => int_parts f | None => Ok [] end ;;
    let mx := match q_fmt q with Some f => Z.max (q_max q) (get_datetime_fmt_len f) | None => q_max q end in
    let ints := q_int q ++ added in
    let header := q_header q ++ map (fun i => strip (nth i lines [])) (seq 0 (q_hlines q)) in
    match rev header with
    | [] => Ok (mkLoaded header [] ints)
    | last :: _ =>
        let keyheader := match rev (q_header q) with h :: _ => h | [] => last end in
        let names := names_of q keyheader in
        ty1 <- set_types ints TInt (repeat TFloat (length names)) ;;
        ty2 <- set_types (q_str q) (TStr mx) ty1 ;;
        let dated := match q_dtcols q, q_fmt q with _ :: _, Some _ => true | _, _ => false end in
        dk <- (if dated then k <- free_key dt_keys names ;; Ok (Some k) else Ok None) ;;
        types <- (if dated then set_dates ints parts 0 (q_dtcols q) (TStr mx) ty2 else Ok ty2) ;;
        let keys := names ++ match dk with Some k => [k] | None => [] end in
        temp <- genfromtxt (match q_comments q with Some c => c | None => Some (s2l "#") end) (skipn (q_hlines q) lines) ;;
        let out0 := map (fun k => (k, [])) (uniq [] keys) in
        out <- match temp with
               | Arr0 _ => Err TypeError
               | Arr1 l => all_lines (text_cell q types dk) keys l out0
               | Arr2 rows => all_lines (row_cell q types dk) keys rows out0
               end ;;
        if forallb (fun p => match snd p with [] => false | _ => true end) out then Ok (mkLoaded header out ints) else Err IndexError
    end.
End Float.
