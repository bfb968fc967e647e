(** Independent vocabulary for loading boundary files. *)
From Coq Require Import String Reals ZArith QArith List Bool Sorted.
From Verif Require Import PyBase TimeModel CycleModel CoordModel LoadModel.
Import ListNotations.
Open Scope list_scope.

(** A time between the limits, where given; both ends belong to the window. *)
Definition in_window (stime etime : option Z) (t : Z) : Prop :=
  (forall s, stime = Some s -> (s <= t)%Z) /\ (forall e, etime = Some e -> (t <= e)%Z).

(** A table: rows as wide as the list of column names, which are distinct. *)
Definition is_table (cols : list string) (rows : list (list cell)) : Prop :=
  NoDup cols /\ Forall (fun row => length row = length cols) rows.

(** The value of the column [name] in a row. *)
Definition entry (cols : list string) (row : list cell) (name : string) (c : cell) : Prop :=
  exists i, nth_error cols i = Some name /\ nth_error row i = Some c.

(** The time of a row: year and second of year if there are such columns, else date and
    time of day read with the format (C22 and C25 describe these conversions). *)
Definition year_file (cols : list string) : Prop := In "year"%string cols /\ In "soy"%string cols.
Definition date_file (cols : list string) : Prop := In "date"%string cols /\ In "time"%string cols.
Definition stamped (cols : list string) (fmt : str) (row : list cell) (t : Z) : Prop :=
  (year_file cols /\ exists y q, entry cols row "year" (CInt y) /\ entry cols row "soy" (CFlt (Fin q)) /\
     convert_time (Some y) (Some q) None None None None fmt = Ok t) \/
  (~ year_file cols /\ date_file cols /\ exists d tod, entry cols row "date" (CStr d) /\ entry cols row "time" (CStr tod) /\
     convert_time None None None None (Some d) (Some tod) fmt = Ok t).

(** The positions, in order, of the times in the window. *)
Definition selected (stime etime : option Z) (times : list Z) (idx : list nat) : Prop :=
  StronglySorted lt idx /\ forall i, In i idx <-> exists t, nth_error times i = Some t /\ in_window stime etime t.

(** The loaded data as a boundary to cycle through, for any reading [num_of] of the
    stored values as floats. *)
Definition as_boundary {F K} (num_of : val -> num) (mn mx : num) (d : loaded F K) : boundary :=
  mkB (l_records d) (l_rec_ind d) (l_dtime d)
      (match assoc "fom"%string (l_attrs d) with Some l => map num_of l | None => [] end) mn mx
      (map (fun p => (fst p, AArr (map num_of (snd p)))) (l_attrs d)).
