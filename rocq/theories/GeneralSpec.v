(** Independent vocabulary for tables in text files. *)
From Coq Require Import String Ascii ZArith QArith List Bool.
From Verif Require Import PyBase TimeModel TimeSpec FilesModel TextSpec SmagModel GeneralModel.
Import ListNotations.
Open Scope string_scope.
Open Scope list_scope.
Open Scope Z_scope.

Definition hash : ascii := "#"%char.
(** Words with single spaces between them. *)
Fixpoint with_spaces (ws : list str) : str := match ws with [] => [] | [t] => t | t :: r => t ++ " "%char :: with_spaces r end.
(** A line with these words before any comment. *)
Definition row_line (ws : list str) (l : str) : Prop :=
  exists body rest, l = body ++ rest /\ ~ In hash body /\ (rest = [] \/ exists c, rest = hash :: c) /\ spaced ws body.
(** The rows of a table on lines; lines without words are skipped. *)
Inductive data_lines : list (list str) -> list str -> Prop :=
| dl_end : data_lines [] []
| dl_skip l rows ls : row_line [] l -> data_lines rows ls -> data_lines rows (l :: ls)
| dl_row r l rows ls : r <> [] -> row_line r l -> data_lines rows ls -> data_lines (r :: rows) (l :: ls).
(** A line of column names, perhaps after a hash. *)
Definition names_line (names : list str) (l : str) : Prop :=
  exists body, spaced names body /\ ~ In hash body /\ (l = body \/ l = hash :: body).

(** ** The parts of a time format *)
Definition ignoring_case (name : string) (p : str) : Prop := upper p = s2l name.
Definition has (name : string) (p : str) : Prop := exists a b, upper p = a ++ s2l name ++ b.
Definition whole_part (p : str) : Prop := ignoring_case "YEAR" p \/ ignoring_case "SOY" p.
Definition directive_part (p : str) : Prop := (exists d r, p = "%"%char :: d :: r) /\ ~ has "YEAR" p /\ ~ has "SOY" p /\ ~ has "SOD" p.
Definition good_part (p : str) : Prop :=
  word p /\ (directive_part p \/ whole_part p \/ ignoring_case "SOD" p \/ ignoring_case "YYDDD" p).
(** What a part is for. *)
Inductive use := UYear | USoy | USod | UYyddd | UDate | UTod.
Definition used_for (p : str) (u : use) : Prop :=
  match u with
  | UYear => ignoring_case "YEAR" p | USoy => ignoring_case "SOY" p | USod => ignoring_case "SOD" p | UYyddd => ignoring_case "YYDDD" p
  | UTod => exists d r, p = "%"%char :: d :: r /\ In d (list_ascii_of_string "HIpMSfzZ")
  | UDate => exists d r, p = "%"%char :: d :: r /\ ~ In d (list_ascii_of_string "HIpMSfzZ")
  end.

Section Spec.
Context {V : Type} (pf : str -> res V) (toQ : V -> res Q).
(** Integer and text columns asked for, columns with the parts of the time. *)
Context (ints strs dcols : list nat) (parts : list str) (maxlen : Z).
Definition integer_column (j : nat) : Prop :=
  ~ In j strs /\ (In j ints \/ exists i p, nth_error dcols i = Some j /\ nth_error parts i = Some p /\ whole_part p).
Definition text_column (j : nat) : Prop :=
  In j strs \/ (~ In j ints /\ exists i p, nth_error dcols i = Some j /\ nth_error parts i = Some p /\ ~ whole_part p /\ ~ ignoring_case "SOD" p).
(** The value of a text in a column. *)
Definition value (j : nat) (text : str) (c : cell V) : Prop :=
  (integer_column j /\ exists z, integer z text /\ - 2 ^ 63 <= z < 2 ^ 63 /\ c = CZ z) \/
  (text_column j /\ zlen text <= maxlen /\ c = CS text) \/
  (~ integer_column j /\ ~ text_column j /\ exists v, pf text = Ok v /\ c = CF v).
(** The texts of a row that are for a use, in the order of the format. *)
Inductive texts_for (u : use) (row : list str) : list str -> list nat -> list str -> Prop :=
| tf_end ps : texts_for u row ps [] []
| tf_take p ps j js t ts : used_for p u -> nth_error row j = Some t -> texts_for u row ps js ts -> texts_for u row (p :: ps) (j :: js) (t :: ts)
| tf_skip p ps j js ts : ~ used_for p u -> texts_for u row ps js ts -> texts_for u row (p :: ps) (j :: js) ts.
Inductive an_integer : list str -> option Z -> Prop :=
| ai_none : an_integer [] None
| ai_one s z : integer z s -> - 2 ^ 63 <= z < 2 ^ 63 -> an_integer [s] (Some z).
Inductive a_number : list str -> option Q -> Prop :=
| an_none : a_number [] None
| an_one s v q : pf s = Ok v -> toQ v = Ok q -> a_number [s] (Some q).
Inductive a_text : list str -> option str -> Prop :=
| at_none : a_text [] None
| at_some s l : a_text (s :: l) (Some (with_spaces (s :: l))).
(** The time of a row: that of [ocb_time.convert_time] on the texts of the row. *)
Definition row_instant (fmt : str) (row : list str) (t : Z) : Prop :=
  exists ly ls ld lx la lt y s x d a o,
    texts_for UYear row parts dcols ly /\ an_integer ly y /\ texts_for USoy row parts dcols ls /\ an_integer ls s /\
    texts_for USod row parts dcols ld /\ a_number ld d /\ texts_for UYyddd row parts dcols lx /\ a_text lx x /\
    texts_for UDate row parts dcols la /\ a_text la a /\ texts_for UTod row parts dcols lt /\ a_text lt o /\
    convert_time y (option_map inject_Z s) x d a o fmt = Ok t.
(** Requests for which columns are read as asked: the columns exist, each part has its own
    column, a whole-number part is in the column of its position, and the columns of the
    other parts are not asked for as integers. *)
Record sound_request (n : nat) : Prop := {
  sr_ints : Forall (fun j => (j < n)%nat) ints; sr_strs : Forall (fun j => (j < n)%nat) strs; sr_dates : Forall (fun j => (j < n)%nat) dcols;
  sr_parts : Forall good_part parts; sr_nodup : NoDup dcols; sr_len : (length dcols <= length parts)%nat;
  sr_once : forall i i' p p', nth_error parts i = Some p -> nth_error parts i' = Some p' -> whole_part p -> upper p = upper p' -> i = i';
  sr_place : forall i p, nth_error parts i = Some p -> whole_part p -> nth_error dcols i = Some i;
  sr_other : forall i p j, nth_error parts i = Some p -> nth_error dcols i = Some j -> ~ whole_part p -> ~ In j ints }.
End Spec.
(** A line without the white space at its ends. *)
Definition stripped (l s : str) : Prop :=
  exists a b, l = a ++ s ++ b /\ blank a /\ blank b /\ (forall c r, s = c :: r -> isspace c = false) /\ (forall r c, s = r ++ [c] -> isspace c = false).
(** The first of the names for the times that is not the name of a column. *)
Definition time_name (names : list str) (k : str) : Prop :=
  exists a b, map s2l ["datetime"; "DATETIME"; "DT"; "dt"] = a ++ k :: b /\ Forall (fun x => In x names) a /\ ~ In k names.
(** ** Requests *)
Section Request.
Context {V : Type} (pf : str -> res V) (q : request) (ints strs dcols : list nat) (parts names : list str).
(** The longest text kept: the caller's limit, or the length of the written time if longer. *)
Definition longest : Z := match q_fmt q with Some f => Z.max (q_max q) (get_datetime_fmt_len f) | None => q_max q end.
(** The request, in terms of positions and parts. *)
Record asks : Prop := {
  as_ints : q_int q = map Z.of_nat ints; as_strs : q_str q = map Z.of_nat strs; as_dates : q_dtcols q = map Z.of_nat dcols;
  as_fmt : (q_fmt q = None /\ parts = [] /\ dcols = []) \/ (q_fmt q = Some (with_spaces parts) /\ parts <> []);
  as_plain : q_comments q = None /\ q_hsplit q = None }.
(** The names come from the last line given by the caller, or else from the last header line. *)
Definition named (lines : list str) : Prop :=
  (q_header q = [] /\ exists m l, q_hlines q = S m /\ nth_error lines m = Some l /\ names_line names l) \/
  (exists h l, q_header q = h ++ [l] /\ names_line names l).
(** The first lines, without the white space at their ends. *)
Definition first_lines (lines : list str) (hs : list str) : Prop := Forall2 stripped (firstn (q_hlines q) lines) hs.
(** A readable row of the table. *)
Definition row_ok (row : list str) : Prop := length row = length names /\ forall j s, nth_error row j = Some s -> exists c, value pf ints strs dcols parts longest j s c.
Definition good_request : Prop := asks /\ sound_request ints strs dcols parts (length names) /\ NoDup names /\ (2 <= length names)%nat.
End Request.
