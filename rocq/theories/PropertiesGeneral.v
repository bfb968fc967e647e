(** C67, C108-C111: tables in text files. *)
From Coq Require Import String Ascii ZArith QArith List Bool Lia.
From Verif Require Import PyBase PyString TimeModel TimeSpec TimeProofs TimeProofs4 PropertiesTime FilesModel FilesProofs TextSpec TextProofs SmagModel LoadProofs VortProofs PropertiesSmag PropertiesVort
  GeneralModel GeneralSpec GeneralProofs GeneralProofs2 GeneralProofs3.
Import ListNotations.
Open Scope string_scope.
Open Scope list_scope.
Open Scope Z_scope.

(** ** C67.  Full statement: the types of the columns are those asked for, wherever the columns
    of the time are, and the caller's lists are left alone.  Missing: the whole-number parts
    of the time must be at the positions of their columns; the lists are extended. *)
Theorem C67_column_types_partial :
  forall V (pf : str -> res V) toQ q ints strs dcols parts names size lines rows,
    good_request q ints strs dcols parts names -> 0 < size <= 2000000000 -> named q names lines ->
    data_lines rows (skipn (q_hlines q) lines) -> (2 <= length rows)%nat -> Forall (row_ok pf q ints strs dcols parts names) rows ->
    (dcols <> [] -> (exists k, time_name names k) /\ Forall (fun row => exists t, row_instant pf toQ dcols parts (with_spaces parts) row t) rows) ->
    exists o hs added, load_ascii pf toQ q true size lines = Ok o /\ o_header o = q_header q ++ hs /\ first_lines q lines hs /\
      o_int o = q_int q ++ map Z.of_nat added /\ (forall j, In j added <-> exists p, nth_error parts j = Some p /\ whole_part p) /\
      (forall j name, nth_error names j = Some name -> exists cells, lookup name (o_data o) = Some cells /\
         Forall2 (fun row c => exists s, nth_error row j = Some s /\ value pf ints strs dcols parts (longest q) j s c) rows cells) /\
      (dcols = [] -> map fst (o_data o) = names) /\
      (dcols <> [] -> exists k ts, time_name names k /\ map fst (o_data o) = names ++ [k] /\ lookup k (o_data o) = Some (map CT ts) /\
         Forall2 (row_instant pf toQ dcols parts (with_spaces parts)) rows ts).
Proof. intros. eapply load_spec; eassumption. Qed.

(** The list of integer columns is left alone when the format has no year or second of the year. *)
Theorem C67_list_kept_partial :
  forall V (pf : str -> res V) toQ q isfile size lines o, (forall f, q_fmt q = Some f -> ~ has "YEAR" f /\ ~ has "SOY" f) ->
    load_ascii pf toQ q isfile size lines = Ok o -> o_int o = q_int q.
Proof.
  intros V pf toQ q isfile size lines o H. unfold load_ascii. destruct (negb (test_file isfile size)); [intros E; injection E as <-; reflexivity|].
  assert (A : match q_fmt q with Some f => int_parts f | None => Ok [] end = Ok []).
  { destruct (q_fmt q) as [f|]; [|reflexivity]. destruct (H f eq_refl) as [A B]. unfold int_parts.
    assert (N : forall w, ~ has w f -> find (s2l w) (upper f) = None).
    { intros w NW. destruct (find (s2l w) (upper f)) as [i|] eqn:E; [|reflexivity]. exfalso. apply NW. apply contains_spec. unfold contains. rewrite E. reflexivity. }
    rewrite (N "YEAR" A), (N "SOY" B). reflexivity. }
  rewrite A. cbn [bind]. rewrite app_nil_r. destruct (rev _) as [|last r]; [intros E; injection E as <-; reflexivity|].
  repeat match goal with |- bind ?e _ = Ok _ -> _ => destruct e; cbn [bind]; [|discriminate] end.
  destruct (forallb _ _); [|discriminate]. intros E. injection E as <-. reflexivity.
Qed.


(** ** Instants are determined by the row. *)
Lemma texts_fun u row ps js : forall ts ts', texts_for u row ps js ts -> texts_for u row ps js ts' -> ts = ts'.
Proof.
  intros ts ts' T. revert ts'. induction T as [ps|p ps j js t ts U R T IH|p ps j js ts U T IH]; intros ts' T'; inversion T'; subst; try reflexivity; try contradiction.
  - f_equal; [congruence|]. apply IH. assumption.
  - apply IH. assumption.
Qed.
Lemma an_integer_fun l o o' : an_integer l o -> an_integer l o' -> o = o'.
Proof. intros [|s z A _] H; inversion H; subst; [reflexivity|]. f_equal. apply py_int_integer in A. match goal with X : integer ?b s |- _ => apply py_int_integer in X; rewrite A in X; injection X as <- end. reflexivity. Qed.
Lemma a_text_fun l o o' : a_text l o -> a_text l o' -> o = o'.
Proof. intros [|s r] H; inversion H; subst; reflexivity. Qed.
Section Fun.
Context {V : Type} (pf : str -> res V) (toQ : V -> res Q).
Lemma a_number_fun l o o' : a_number pf toQ l o -> a_number pf toQ l o' -> o = o'.
Proof. intros [|s v x A B] H; inversion H; subst; [reflexivity|]. congruence. Qed.
Lemma row_instant_fun dcols parts fmt row t t' : row_instant pf toQ dcols parts fmt row t -> row_instant pf toQ dcols parts fmt row t' -> t = t'.
Proof.
  intros (ly & ls & ld & lx & la & lt & y & s & x & d & a & o & T1 & I1 & T2 & I2 & T3 & I3 & T4 & I4 & T5 & I5 & T6 & I6 & CV)
    (ly' & ls' & ld' & lx' & la' & lt' & y' & s' & x' & d' & a' & o' & T1' & I1' & T2' & I2' & T3' & I3' & T4' & I4' & T5' & I5' & T6' & I6' & CV').
  rewrite <- (texts_fun _ _ _ _ _ _ T1 T1') in I1'. rewrite <- (texts_fun _ _ _ _ _ _ T2 T2') in I2'. rewrite <- (texts_fun _ _ _ _ _ _ T3 T3') in I3'.
  rewrite <- (texts_fun _ _ _ _ _ _ T4 T4') in I4'. rewrite <- (texts_fun _ _ _ _ _ _ T5 T5') in I5'. rewrite <- (texts_fun _ _ _ _ _ _ T6 T6') in I6'.
  rewrite <- (an_integer_fun _ _ _ I1 I1'), <- (an_integer_fun _ _ _ I2 I2'), <- (a_number_fun _ _ _ I3 I3'), <- (a_text_fun _ _ _ I4 I4'), <- (a_text_fun _ _ _ I5 I5'), <- (a_text_fun _ _ _ I6 I6') in CV'. congruence.
Qed.
(** Loading when [P] describes the time of a row. *)
Lemma load_times q ints strs dcols parts names size lines rows (P : list str -> Z -> Prop) :
  good_request q ints strs dcols parts names -> 0 < size <= 2000000000 -> named q names lines ->
  data_lines rows (skipn (q_hlines q) lines) -> (2 <= length rows)%nat -> Forall (row_ok pf q ints strs dcols parts names) rows ->
  dcols <> [] -> (exists k, time_name names k) -> (forall row t, P row t -> row_instant pf toQ dcols parts (with_spaces parts) row t) -> Forall (fun row => exists t, P row t) rows ->
  exists o k ts, load_ascii pf toQ q true size lines = Ok o /\ time_name names k /\ lookup k (o_data o) = Some (map CT ts) /\ Forall2 P rows ts.
Proof.
  intros G SZ NM D R2 RO DN TN PI HP.
  destruct (load_spec pf toQ q ints strs dcols parts names size lines rows G SZ NM D R2 RO) as (o & hs & added & E & _ & _ & _ & _ & _ & _ & X).
  { intros _. split; [exact TN|]. eapply Forall_impl; [|exact HP]. intros row (t & T). exists t. exact (PI row t T). }
  destruct (X DN) as (k & ts & K & _ & L & F). exists o, k, ts. split; [exact E|]. split; [exact K|]. split; [exact L|].
  clear - F HP PI. induction F as [|row t rows ts H F IH]; [constructor|]. inversion HP as [|? ? (t' & T) HP']; subst. constructor; [|exact (IH HP')].
  rewrite (row_instant_fun _ _ _ _ _ _ H (PI row t' T)). exact T.
Qed.
End Fun.
(** ** C108.  The times are those written in the rows, in whichever columns. *)
(** A date and a time of day. *)
Definition date_and_tod (a b : nat) (row : list str) (t : Z) : Prop :=
  exists y m d n h mi s sd st, nth_error row a = Some sd /\ nth_error row b = Some st /\ calendar_day y m d n /\ date_text y m d sd /\
    0 <= h <= 23 /\ 0 <= mi <= 59 /\ 0 <= s <= 59 /\ tod_text h mi s st /\ t = day_us n + sec_us (h * 3600 + mi * 60 + s).
(** A date and the seconds of the day, rounded up to microseconds. *)
Definition date_and_sod {V} (pf : str -> res V) (toQ : V -> res Q) (a b : nat) (row : list str) (t : Z) : Prop :=
  exists y m d n sd sq v x us e, nth_error row a = Some sd /\ nth_error row b = Some sq /\ calendar_day y m d n /\ date_text y m d sd /\
    pf sq = Ok v /\ toQ v = Ok x /\ (0 <= x)%Q /\ ceil_us x us /\ year_start 10000 e /\ day_us n + us < day_us e /\ t = day_us n + us.
(** A year and the seconds of the year. *)
Definition year_and_soy (a b : nat) (row : list str) (t : Z) : Prop :=
  exists y s sy ss d, nth_error row a = Some sy /\ nth_error row b = Some ss /\ integer y sy /\ integer s ss /\ 1000 <= y <= 9999 /\ 0 <= s < 366 * 86400 /\
    (y < 9999 \/ s < 365 * 86400) /\ year_start y d /\ t = day_us d + sec_us s.

Lemma not_used p u : good_part p -> forall u', used_for p u' -> u <> u' -> ~ used_for p u.
Proof.
  intros _ u' U N U'. assert (PC : forall w d r, ignoring_case w ("%"%char :: d :: r) -> (match s2l w with c :: _ => Ascii.eqb c "%" | [] => true end) = false -> False)
    by (intros w d r I E; exact (case_not_pct w _ I E)).
  destruct u, u'; try contradiction; cbn in U, U'; unfold ignoring_case in *;
    repeat match goal with H : exists _, _ |- _ => destruct H end; repeat match goal with H : _ /\ _ |- _ => destruct H end; subst;
    try (match goal with A : upper p = _, B : upper p = _ |- _ => rewrite A in B; discriminate B end);
    try (match goal with H : upper (_ :: _) = _ |- _ => discriminate H end);
    try (match goal with H : _ :: _ = _ :: _ |- _ => injection H as -> -> end; contradiction).
Qed.
Lemma two_texts u p1 p2 row a b sa sb (u1 u2 : use) : good_part p1 -> good_part p2 -> used_for p1 u1 -> used_for p2 u2 -> u1 <> u2 -> nth_error row a = Some sa -> nth_error row b = Some sb ->
  texts_for u row [p1; p2] [a; b] (if use_dec u u1 then [sa] else if use_dec u u2 then [sb] else []).
Proof.
  intros G1 G2 U1 U2 N A B. destruct (use_dec u u1) as [->|N1].
  - apply tf_take; [exact U1|exact A|]. apply tf_skip; [exact (not_used p2 u1 G2 u2 U2 N)|constructor].
  - apply tf_skip; [exact (not_used p1 u G1 u1 U1 N1)|]. destruct (use_dec u u2) as [->|N2]; [apply tf_take; [exact U2|exact B|constructor]|]. apply tf_skip; [exact (not_used p2 u G2 u2 U2 N2)|constructor].
Qed.
Definition goodb (p : str) : bool :=
  wordb p && (match p with c :: d :: r => Ascii.eqb c "%" && negb (contains "YEAR" (upper p)) && negb (contains "SOY" (upper p)) && negb (contains "SOD" (upper p)) | _ => false end
   || str_eqb (upper p) "YEAR" || str_eqb (upper p) "SOY" || str_eqb (upper p) "SOD" || str_eqb (upper p) "YYDDD").
Lemma goodb_spec p : goodb p = true -> good_part p.
Proof.
  intros H. apply andb_true_iff in H. destruct H as [W H]. split; [apply wordb_word, W|]. rewrite !orb_true_iff, !str_eqb_spec in H. destruct H as [[[[H|H]|H]|H]|H].
  - left. destruct p as [|c [|d r]]; try discriminate H. rewrite !andb_true_iff, !negb_true_iff in H. destruct H as [[[A B] C] D]. apply Ascii.eqb_eq in A. subst c. split; [exists d, r; reflexivity|].
    assert (N : forall w, contains (s2l w) (upper ("%"%char :: d :: r)) = false -> ~ has w ("%"%char :: d :: r)). { intros w E X. apply contains_spec in X. congruence. }
    split; [apply N, B|]. split; [apply N, C|apply N, D].
  - right. left. left. exact H.
  - right. left. right. exact H.
  - right. right. left. exact H.
  - right. right. right. exact H.
Qed.
Definition ymd : str := s2l "%Y-%m-%d".
Definition hms : str := s2l "%H:%M:%S".
Definition sodp : str := s2l "SOD".
Lemma ymd_date : used_for ymd UDate. Proof. exists "Y"%char, (s2l "-%m-%d"). split; [reflexivity|]. cbn [In list_ascii_of_string]. intros H. repeat (destruct H as [H|H]; [discriminate H|]). destruct H. Qed.
Lemma hms_tod : used_for hms UTod. Proof. exists "H"%char, (s2l ":%M:%S"). split; [reflexivity|]. left. reflexivity. Qed.
Section C108.
Context {V : Type} (pf : str -> res V) (toQ : V -> res Q).
Lemma instant_tod a b row t : date_and_tod a b row t -> row_instant pf toQ [a; b] [ymd; hms] (with_spaces [ymd; hms]) row t.
Proof.
  intros (y & m & d & n & h & mi & s & sd & st & A & B & C & D & H1 & H2 & H3 & T & ->).
  assert (TX : forall u, texts_for u row [ymd; hms] [a; b] (if use_dec u UDate then [sd] else if use_dec u UTod then [st] else [])).
  { intros u. apply two_texts; [apply goodb_spec; reflexivity|apply goodb_spec; reflexivity|exact ymd_date|exact hms_tod|discriminate|exact A|exact B]. }
  exists [], [], [], [], [sd], [st], None, None, None, None, (Some sd), (Some st).
  split; [exact (TX UYear)|]. split; [constructor|]. split; [exact (TX USoy)|]. split; [constructor|]. split; [exact (TX USod)|]. split; [constructor|]. split; [exact (TX UYyddd)|]. split; [constructor|].
  split; [exact (TX UDate)|]. split; [exact (at_some sd [])|]. split; [exact (TX UTod)|]. split; [exact (at_some st [])|]. cbn [option_map].
  destruct (C78_date_and_time_text y m d n h mi s sd st [] C D H1 H2 H3 T) as [X _]. rewrite app_nil_r in X. apply X. intros [].
Qed.
Lemma instant_sod a b row t : date_and_sod pf toQ a b row t -> row_instant pf toQ [a; b] [ymd; sodp] (with_spaces [ymd; sodp]) row t.
Proof.
  intros (y & m & d & n & sd & sq & v & x & us & e & A & B & C & D & P & Q & X0 & U & E & L & ->).
  assert (TX : forall u, texts_for u row [ymd; sodp] [a; b] (if use_dec u UDate then [sd] else if use_dec u USod then [sq] else [])).
  { intros u. apply two_texts; [apply goodb_spec; reflexivity|apply goodb_spec; reflexivity|exact ymd_date|reflexivity|discriminate|exact A|exact B]. }
  exists [], [], [sq], [], [sd], [], None, None, None, (Some x), (Some sd), None.
  split; [exact (TX UYear)|]. split; [constructor|]. split; [exact (TX USoy)|]. split; [constructor|]. split; [exact (TX USod)|]. split; [exact (an_one pf toQ sq v x P Q)|]. split; [exact (TX UYyddd)|]. split; [constructor|].
  split; [exact (TX UDate)|]. split; [exact (at_some sd [])|]. split; [exact (TX UTod)|]. split; [constructor|]. cbn [option_map].
  pose proof (C25_date_and_seconds y m d n sd x us e C D X0 U E) as X. rewrite (proj2 (Z.ltb_lt _ _) L) in X. rewrite <- X. apply calendar_day_spec in C. destruct C as [C1 [C2 [C3 _]]].
  change (s2l "%Y-%m-%d %H:%M:%S") with default_fmt. rewrite (convert_date_sod y m d sd (Some x) _ D ltac:(lia) C2 C3 cut_default). apply (convert_date_sod y m d sd (Some x) _ D ltac:(lia) C2 C3). reflexivity.
Qed.
Lemma instant_soy a b row t : year_and_soy a b row t -> row_instant pf toQ [a; b] [s2l "YEAR"; s2l "SOY"] (with_spaces [s2l "YEAR"; s2l "SOY"]) row t.
Proof.
  intros (y & s & sy & ss & d & A & B & IY & IS & HY & HS & H9 & YS & ->).
  assert (TX : forall u, texts_for u row [s2l "YEAR"; s2l "SOY"] [a; b] (if use_dec u UYear then [sy] else if use_dec u USoy then [ss] else [])).
  { intros u. apply two_texts; [apply goodb_spec; reflexivity|apply goodb_spec; reflexivity|reflexivity|reflexivity|discriminate|exact A|exact B]. }
  exists [sy], [ss], [], [], [], [], (Some y), (Some s), None, None, None, None.
  split; [exact (TX UYear)|]. split; [apply ai_one; [exact IY|lia]|]. split; [exact (TX USoy)|]. split; [apply ai_one; [exact IS|lia]|]. split; [exact (TX USod)|]. split; [constructor|]. split; [exact (TX UYyddd)|]. split; [constructor|].
  split; [exact (TX UDate)|]. split; [constructor|]. split; [exact (TX UTod)|]. split; [constructor|]. cbn [option_map].
  destruct (C76_year_soy_only_value_error_partial y (inject_Z s) None None None None (with_spaces [s2l "YEAR"; s2l "SOY"])) as [-> _].
  destruct (C22_year_soy y s HY HS H9) as (d' & YS' & ->). apply year_start_spec in YS. apply year_start_spec in YS'. destruct YS as [_ ->], YS' as [_ ->]. reflexivity.
Qed.
Theorem C108_date_and_time_of_day :
  forall q ints strs a b names size lines rows,
    good_request q ints strs [a; b] [s2l "%Y-%m-%d"; s2l "%H:%M:%S"] names -> 0 < size <= 2000000000 -> named q names lines ->
    data_lines rows (skipn (q_hlines q) lines) -> (2 <= length rows)%nat -> Forall (row_ok pf q ints strs [a; b] [s2l "%Y-%m-%d"; s2l "%H:%M:%S"] names) rows ->
    (exists k, time_name names k) -> Forall (fun row => exists t, date_and_tod a b row t) rows ->
    exists o k ts, load_ascii pf toQ q true size lines = Ok o /\ time_name names k /\ lookup k (o_data o) = Some (map CT ts) /\ Forall2 (date_and_tod a b) rows ts.
Proof. intros q ints strs a b names size lines rows G SZ NM D R2 RO TN H. eapply load_times; try eassumption; [discriminate|]. intros row t. exact (instant_tod a b row t). Qed.
Theorem C108_date_and_seconds :
  forall q ints strs a b names size lines rows,
    good_request q ints strs [a; b] [s2l "%Y-%m-%d"; s2l "SOD"] names -> 0 < size <= 2000000000 -> named q names lines ->
    data_lines rows (skipn (q_hlines q) lines) -> (2 <= length rows)%nat -> Forall (row_ok pf q ints strs [a; b] [s2l "%Y-%m-%d"; s2l "SOD"] names) rows ->
    (exists k, time_name names k) -> Forall (fun row => exists t, date_and_sod pf toQ a b row t) rows ->
    exists o k ts, load_ascii pf toQ q true size lines = Ok o /\ time_name names k /\ lookup k (o_data o) = Some (map CT ts) /\ Forall2 (date_and_sod pf toQ a b) rows ts.
Proof. intros q ints strs a b names size lines rows G SZ NM D R2 RO TN H. eapply load_times; try eassumption; [discriminate|]. intros row t. exact (instant_sod a b row t). Qed.
Theorem C108_year_and_seconds_partial :
  forall q ints strs names size lines rows,
    good_request q ints strs [0%nat; 1%nat] [s2l "YEAR"; s2l "SOY"] names -> 0 < size <= 2000000000 -> named q names lines ->
    data_lines rows (skipn (q_hlines q) lines) -> (2 <= length rows)%nat -> Forall (row_ok pf q ints strs [0%nat; 1%nat] [s2l "YEAR"; s2l "SOY"] names) rows ->
    (exists k, time_name names k) -> Forall (fun row => exists t, year_and_soy 0 1 row t) rows ->
    exists o k ts, load_ascii pf toQ q true size lines = Ok o /\ time_name names k /\ lookup k (o_data o) = Some (map CT ts) /\ Forall2 (year_and_soy 0 1) rows ts.
Proof. intros q ints strs names size lines rows G SZ NM D R2 RO TN H. eapply load_times; try eassumption; [discriminate|]. intros row t. exact (instant_soy 0 1 row t). Qed.
End C108.

(** ** C109-C111: tables with one row or none, names taken *)
Section Rows.
Context {V : Type} (pf : str -> res V) (toQ : V -> res Q).
Lemma one_line_lengths (f : Z -> str -> res (cell V)) names : forall num t t', NoDup names -> one_line f num names t = Ok t' ->
  forall k l, lookup k t = Some l -> exists l', lookup k t' = Some l' /\ length l' = (length l + if member k names then 1 else 0)%nat.
Proof.
  induction names as [|n names IH]; intros num t t' N E k l L; cbn [one_line] in E.
  - injection E as <-. exists l. split; [exact L|]. cbn [member existsb]. lia.
  - inversion N as [|? ? NI N']; subst. destruct (f num n) as [c|e]; [|discriminate E]. cbn [bind] in E. destruct (append n c t) as [t1|e] eqn:EA; [|discriminate E]. cbn [bind] in E.
    assert (IK : In n (map fst t)).
    { clear - EA. revert t1 EA. induction t as [|[k0 l0] t IH]; intros t1 EA; cbn [append] in EA; [discriminate EA|]. destruct (str_eqb n k0) eqn:E; [apply str_eqb_spec in E; left; symmetry; exact E|].
      right. destruct (append n c t) as [t2|]; [|discriminate EA]. exact (IH t2 eq_refl). }
    destruct (append_spec n c t IK) as (t2 & E2 & K2 & L2). rewrite E2 in EA. injection EA as <-. destruct (str_eqb k n) eqn:EK.
    + apply str_eqb_spec in EK. subst k. pose proof (L2 n l L) as X. rewrite str_eqb_refl in X.
      destruct (IH _ _ _ N' E n _ X) as (l' & L' & LL). exists l'. split; [exact L'|]. rewrite LL, app_length. cbn [length].
      replace (member n (n :: names)) with true by (symmetry; apply member_spec; left; reflexivity). destruct (member n names) eqn:M; [apply member_spec in M; contradiction|lia].
    + pose proof (L2 k l L) as X. rewrite EK, app_nil_r in X. destruct (IH _ _ _ N' E k _ X) as (l' & L' & LL). exists l'. split; [exact L'|]. rewrite LL. cbn [member existsb]. rewrite EK. reflexivity.
Qed.

Lemma all_lines_lengths {L} (f : L -> Z -> str -> res (cell V)) names lines : NoDup names -> forall t t', all_lines f names lines t = Ok t' ->
  forall k l, In k names -> lookup k t = Some l -> exists l', lookup k t' = Some l' /\ length l' = (length l + length lines)%nat.
Proof.
  intros N. induction lines as [|x lines IH]; intros t t' E k l I LK; cbn [all_lines] in E.
  - injection E as <-. exists l. split; [exact LK|]. cbn [length]. lia.
  - destruct (one_line (f x) 0 names t) as [t1|] eqn:E1; [|discriminate E]. cbn [bind] in E. destruct (one_line_lengths _ _ _ _ _ N E1 k l LK) as (l1 & L1 & LL1). apply member_spec in I. rewrite I in LL1.
    apply member_spec in I. destruct (IH t1 t' E k l1 I L1) as (l2 & L2 & LL2). exists l2. split; [exact L2|]. cbn [length]. lia.
Qed.
Lemma one_line_fails (f : Z -> str -> res (cell V)) names : forall num t k, In k names -> (forall n, exists e, f n k = Err e) -> exists e, one_line f num names t = Err e.
Proof.
  induction names as [|n names IH]; intros num t k I H; [destruct I|]. cbn [one_line]. destruct I as [->|I].
  - destruct (H num) as (e & ->). exists e. reflexivity.
  - destruct (f num n) as [c|e]; [|exists e; reflexivity]. cbn [bind]. destruct (append n c t) as [t1|e]; [|exists e; reflexivity]. cbn [bind]. exact (IH _ _ k I H).
Qed.
Context (q : request) (ints strs dcols : list nat) (parts names : list str).
Lemma request_reads size lines : good_request q ints strs dcols parts names -> 0 < size <= 2000000000 -> named q names lines ->
  exists header ints' types, load_ascii pf toQ q true size lines =
    (dk <- (match dcols with [] => Ok None | _ => k <- free_key dt_keys names ;; Ok (Some k) end) ;;
     let keys := names ++ match dk with Some k => [k] | None => [] end in
     temp <- genfromtxt (Some [hash]) (skipn (q_hlines q) lines) ;;
     out <- match temp with
            | Arr0 _ => Err TypeError
            | Arr1 l => all_lines (text_cell pf q types dk) keys l (map (fun k => (k, [])) (uniq [] keys))
            | Arr2 rows => all_lines (row_cell pf toQ q types dk) keys rows (map (fun k => (k, [])) (uniq [] keys))
            end ;;
     if forallb (fun p => match snd p with [] => false | _ => true end) out then Ok (mkLoaded header out ints') else Err IndexError).
Proof.
  intros (A & S & ND & N2) SZ NM. unfold load_ascii.
  assert (TF : test_file true size = true).
  { unfold test_file. cbn [negb]. destruct (Z.ltb_spec 2000000000 size); [lia|]. destruct (Z.eqb_spec size 0); [lia|reflexivity]. }
  rewrite TF. cbn [negb]. destruct (types_spec pf q ints strs dcols parts _ A S) as (added & EA & IA & ty1 & ty2 & types & E1 & E2 & E3 & TO & TN). rewrite EA. cbn [bind].
  destruct (named_read q ints strs dcols parts names lines A NM) as (last & r & ER & EN). rewrite ER, EN.
  change (match q_fmt q with Some f => Z.max (q_max q) (get_datetime_fmt_len f) | None => q_max q end) with (longest q).
  rewrite E1. cbn [bind]. rewrite E2. cbn [bind]. rewrite (proj1 (as_plain _ _ _ _ _ A)). change (Some (s2l "#")) with (Some [hash]).
  destruct dcols as [|a ds] eqn:ED.
  - rewrite (as_dates _ _ _ _ _ A). cbn [map]. destruct (q_fmt q); cbn [bind]; eexists; eexists; eexists; reflexivity.
  - destruct (as_fmt _ _ _ _ _ A) as [(_ & _ & X)|[QF PN]]; [discriminate X|]. rewrite QF, (split_with_spaces _ PN (sr_parts _ _ _ _ _ S)). rewrite (as_dates _ _ _ _ _ A) in *. cbn [map] in *.
    exists (q_header q ++ map (fun i => strip (nth i lines [])) (seq 0 (q_hlines q))), (q_int q ++ map Z.of_nat added), types. destruct (free_key dt_keys names) as [k|e]; [|reflexivity]. cbn [bind]. rewrite E3. reflexivity.
Qed.
Lemma one_row row ls : data_lines [row] ls -> (2 <= length row)%nat -> genfromtxt (Some [hash]) ls = Ok (Arr1 row).
Proof.
  intros D L. unfold genfromtxt. rewrite (data_rows _ _ D). cbn [forallb]. rewrite Nat.eqb_refl. cbn [andb]. destruct row as [|a [|b r]]; cbn in L; try lia. reflexivity.
Qed.
(** A table with one row: every column gets the whole row, so no column has one value. *)
Theorem C109_single_row_refuted :
  forall size lines row, good_request q ints strs dcols parts names -> 0 < size <= 2000000000 -> named q names lines ->
    data_lines [row] (skipn (q_hlines q) lines) -> length row = length names -> dcols = [] ->
    forall o, load_ascii pf toQ q true size lines = Ok o -> forall name, In name names -> exists cells, lookup name (o_data o) = Some cells /\ length cells = length row /\ length cells <> 1%nat.
Proof.
  intros size lines row G SZ NM D LR DN o E name I. destruct (request_reads size lines G SZ NM) as (h & i' & types & R). rewrite R in E. clear R. rewrite DN in E. cbn [bind] in E.
  destruct G as (A & S & ND & N2). rewrite (one_row row _ D ltac:(lia)) in E. cbn [bind] in E. rewrite app_nil_r in E.
  destruct (all_lines _ names row _) as [t|] eqn:AL; [|discriminate E]. cbn [bind] in E. destruct (forallb _ t); [|discriminate E]. injection E as <-. cbn [o_data].
  destruct (all_lines_lengths _ _ _ ND _ _ AL name [] I) as (l & L & LL); [rewrite (uniq_nodup names [] ND) by (intros ? _ []); apply lookup_start, I|].
  exists l. split; [exact L|]. cbn [length] in LL. lia.
Qed.
(** With times, a table with one row is never read. *)
Theorem C109_single_row_times_refuted :
  forall size lines row, good_request q ints strs dcols parts names -> 0 < size <= 2000000000 -> named q names lines ->
    data_lines [row] (skipn (q_hlines q) lines) -> length row = length names -> dcols <> [] ->
    exists e, load_ascii pf toQ q true size lines = Err e.
Proof.
  intros size lines row G SZ NM D LR DN. destruct (request_reads size lines G SZ NM) as (h & i' & types & R). rewrite R. clear R.
  destruct dcols as [|a ds] eqn:ED; [contradiction|]. destruct (free_key dt_keys names) as [k|e]; [|exists e; reflexivity]. cbn [bind]. destruct G as (A & S & ND & N2).
  rewrite (one_row row _ D ltac:(lia)). cbn [bind]. destruct row as [|w row]; [cbn in LR; lia|]. cbn [all_lines].
  destruct (one_line_fails (text_cell pf q types (Some k) w) (names ++ [k]) 0 (map (fun k => (k, [])) (uniq [] (names ++ [k]))) k) as (e & ->); [apply in_elt| |exists e; reflexivity].
  intros n. unfold text_cell. rewrite str_eqb_refl. destruct (q_dtcols q) as [|d0 l0]; [eexists; reflexivity|]. destruct (getE w d0) as [c|e]; eexists; reflexivity.
Qed.
(** No rows at all. *)
Theorem C110_no_rows :
  forall size lines, good_request q ints strs dcols parts names -> 0 < size <= 2000000000 -> named q names lines ->
    data_lines [] (skipn (q_hlines q) lines) -> load_ascii pf toQ q true size lines = Err IndexError.
Proof.
  intros size lines G SZ NM D. destruct (request_reads size lines G SZ NM) as (h & i' & types & R). rewrite R. clear R. destruct G as (A & S & ND & N2).
  assert (GF : genfromtxt (Some [hash]) (skipn (q_hlines q) lines) = Ok (Arr1 [])) by (unfold genfromtxt; rewrite (data_rows _ _ D); reflexivity). rewrite GF.
  assert (X : forall keys, forallb (fun p : str * list (cell V) => match snd p with [] => false | _ => true end) (map (fun k => (k, [])) (uniq [] (names ++ keys))) = false).
  { intros keys. destruct names as [|n0 ns]; [cbn in N2; lia|]. reflexivity. }
  destruct dcols; cbn [bind all_lines].
  - rewrite (X []). reflexivity.
  - destruct (free_key dt_keys names) as [k|e] eqn:FK; cbn [bind]; [rewrite (X [k]); reflexivity|]. clear - FK.
    assert (Y : forall ks e, free_key ks names = Err e -> e = IndexError) by (induction ks as [|k ks IH]; intros e0 E; cbn [free_key] in E; [congruence|destruct (member k names); [exact (IH e0 E)|discriminate E]]).
    rewrite (Y _ _ FK). reflexivity.
Qed.
(** Rows of different lengths. *)
Theorem C110_ragged_rows :
  forall size lines rows r r', good_request q ints strs dcols parts names -> 0 < size <= 2000000000 -> named q names lines ->
    data_lines rows (skipn (q_hlines q) lines) -> In r rows -> In r' rows -> length r <> length r' -> (exists k, time_name names k) ->
    load_ascii pf toQ q true size lines = Err ValueError.
Proof.
  intros size lines rows r r' G SZ NM D I I' NE (k0 & ka & kb & EK & _ & NK). destruct (request_reads size lines G SZ NM) as (h & i' & types & R). rewrite R. clear R.
  assert (GF : genfromtxt (Some [hash]) (skipn (q_hlines q) lines) = Err ValueError).
  { unfold genfromtxt. rewrite (data_rows _ _ D). destruct rows as [|r0 rows]; [destruct I|].
    destruct (forallb (fun r : list str => (length r =? length r0)%nat) (r0 :: rows)) eqn:F; [|reflexivity]. exfalso. rewrite forallb_forall in F. apply NE.
    pose proof (F r I) as X. pose proof (F r' I') as X'. apply Nat.eqb_eq in X. apply Nat.eqb_eq in X'. congruence. }
  rewrite GF. destruct (free_key_spec dt_keys names) as (a & k & b & _ & _ & _ & FE). { exists k0. split; [|exact NK]. change dt_keys with (map s2l ["datetime"; "DATETIME"; "DT"; "dt"]). rewrite EK. apply in_elt. }
  rewrite FE. destruct dcols; reflexivity.
Qed.
(** A file that is refused. *)
Theorem C110_file_refused :
  forall isfile size lines, 0 <= size -> isfile = false \/ size = 0 \/ 2000000000 < size ->
    load_ascii pf toQ q isfile size lines = Ok (mkLoaded (q_header q) [] (q_int q)).
Proof.
  intros isfile size lines S0 H. unfold load_ascii. assert (E : test_file isfile size = false); [|rewrite E; reflexivity].
  destruct (test_file isfile size) eqn:E; [|reflexivity]. apply (C66_size_gate isfile size S0) in E. destruct E as [-> E]. destruct H as [H|[H|H]]; [discriminate H|lia|lia].
Qed.
(** All four names of the times are names of columns. *)
Theorem C111_names_taken :
  forall size lines, good_request q ints strs dcols parts names -> 0 < size <= 2000000000 -> named q names lines -> dcols <> [] ->
    Forall (fun k => In (s2l k) names) ["datetime"; "DATETIME"; "DT"; "dt"] -> load_ascii pf toQ q true size lines = Err IndexError.
Proof.
  intros size lines G SZ NM DN F. destruct (request_reads size lines G SZ NM) as (h & i' & types & R). rewrite R. clear R.
  assert (FK : free_key dt_keys names = Err IndexError).
  { unfold dt_keys. cbn [map free_key]. inversion F as [|? ? A F1]; subst. inversion F1 as [|? ? B F2]; subst. inversion F2 as [|? ? C F3]; subst. inversion F3 as [|? ? D _]; subst.
    rewrite (proj2 (member_spec _ _) A), (proj2 (member_spec _ _) B), (proj2 (member_spec _ _) C), (proj2 (member_spec _ _) D). reflexivity. }
  rewrite FK. destruct dcols; [contradiction|reflexivity].
Qed.
End Rows.

(** ** Cases *)
Definition rq (hl : nat) (dt : list Z) (fmt : option string) (ints strs : list Z) : request :=
  mkReq hl None None dt (option_map s2l fmt) ints strs 50 [].
Definition secs (s : str) : res Q := z <- py_int s ;; Ok (inject_Z z).
(** A table with a comment, a blank line, an integer column and a text column. *)
Definition demo_rq : request := rq 2 [0; 1] (Some "YEAR SOY") [3] [4].
Definition demo_file : list str := map s2l ["# data"; "# YEAR SOY lat n name"; "2001 10 70.5 -3 abc # first"; ""; " 2002  20 71.5 4 de"].
Definition demo_names : list str := map s2l ["YEAR"; "SOY"; "lat"; "n"; "name"].
Definition demo_rows : list (list str) := [map s2l ["2001"; "10"; "70.5"; "-3"; "abc"]; map s2l ["2002"; "20"; "71.5"; "4"; "de"]].
Definition demo_parts : list str := [s2l "YEAR"; s2l "SOY"].
Example C67_case :
  exists o, load_ascii txt secs demo_rq true 100 demo_file = Ok o /\ o_header o = [s2l "# data"; s2l "# YEAR SOY lat n name"] /\ o_int o = [3; 0; 1] /\
    o_data o = [(s2l "YEAR", [CZ 2001; CZ 2002]); (s2l "SOY", [CZ 10; CZ 20]); (s2l "lat", [CF (s2l "70.5"); CF (s2l "71.5")]); (s2l "n", [CZ (-3); CZ 4]);
      (s2l "name", [CS (s2l "abc"); CS (s2l "de")]); (s2l "datetime", [CT (day_us 730485 + sec_us 10); CT (day_us 730850 + sec_us 20)])].
Proof. eexists. split; [vm_compute; reflexivity|]. split; [vm_compute; reflexivity|]. split; [vm_compute; reflexivity|]. vm_compute. reflexivity. Qed.

(** Deciding the hypotheses. *)
Lemma nth_combine {A B} (a : list A) : forall (b : list B) i x y, nth_error (combine a b) i = Some (x, y) <-> nth_error a i = Some x /\ nth_error b i = Some y.
Proof.
  induction a as [|a0 a IH]; intros [|b0 b] i x y.
  - destruct i; split; [discriminate|intros [E _]; discriminate E|discriminate|intros [E _]; discriminate E].
  - destruct i; split; [discriminate|intros [E _]; discriminate E|discriminate|intros [E _]; discriminate E].
  - destruct i; split; [discriminate|intros [_ E]; discriminate E|discriminate|intros [_ E]; discriminate E].
  - destruct i as [|i]; cbn [combine nth_error]; [|apply IH]. split; [intros E; injection E as -> ->; split; reflexivity|intros [E F]; injection E as ->; injection F as ->; reflexivity].
Qed.
Definition nmem (j : nat) (l : list nat) : bool := existsb (Nat.eqb j) l.
Lemma nmem_spec j l : nmem j l = true <-> In j l.
Proof. unfold nmem. rewrite existsb_exists. split; [intros (x & I & E); apply Nat.eqb_eq in E; subst; exact I|intros I; exists j; split; [exact I|apply Nat.eqb_refl]]. Qed.
Definition wholeb (p : str) : bool := str_eqb (upper p) "YEAR" || str_eqb (upper p) "SOY".
Lemma wholeb_spec p : wholeb p = true <-> whole_part p.
Proof. unfold wholeb. rewrite orb_true_iff, !str_eqb_spec. reflexivity. Qed.
Section Dec.
Context (q : request) (ints strs dcols : list nat) (parts names : list str).
Definition partb (f : str -> bool) (j : nat) : bool := existsb (fun cp => Nat.eqb (fst cp) j && f (snd cp)) (combine dcols parts).
Lemma partb_spec f j : partb f j = true <-> exists i p, nth_error dcols i = Some j /\ nth_error parts i = Some p /\ f p = true.
Proof.
  unfold partb. rewrite existsb_exists. split.
  - intros ([c p] & I & E). cbn [fst snd] in E. apply andb_true_iff in E. destruct E as [E F]. apply Nat.eqb_eq in E. subst c. apply In_nth_error in I. destruct I as (i & I). apply nth_combine in I. exists i, p. tauto.
  - intros (i & p & A & B & F). exists (j, p). split; [apply (nth_error_In _ i), nth_combine; split; assumption|]. cbn [fst snd]. rewrite Nat.eqb_refl. exact F.
Qed.
Definition intcb (j : nat) : bool := negb (nmem j strs) && (nmem j ints || partb wholeb j).
Lemma intcb_spec j : intcb j = true <-> integer_column ints strs dcols parts j.
Proof.
  unfold intcb, integer_column. rewrite andb_true_iff, negb_true_iff, orb_true_iff, nmem_spec, partb_spec. rewrite <- not_true_iff_false, nmem_spec.
  split; intros [A B]; (split; [exact A|]); (destruct B as [B|(i & p & X & Y & Z)]; [left; exact B|right; exists i, p; rewrite wholeb_spec in *; tauto]).
Qed.
Definition textcb (j : nat) : bool := nmem j strs || (negb (nmem j ints) && partb (fun p => negb (wholeb p) && negb (str_eqb (upper p) "SOD")) j).
Lemma textcb_spec j : textcb j = true <-> text_column ints strs dcols parts j.
Proof.
  unfold textcb, text_column. rewrite orb_true_iff, andb_true_iff, negb_true_iff, partb_spec, nmem_spec, <- not_true_iff_false, nmem_spec.
  assert (X : forall p, negb (wholeb p) && negb (str_eqb (upper p) "SOD") = true <-> ~ whole_part p /\ ~ ignoring_case "SOD" p).
  { intros p. rewrite andb_true_iff, !negb_true_iff, <- !not_true_iff_false, wholeb_spec, str_eqb_spec. reflexivity. }
  split; (intros [A|[A (i & p & B & C & D)]]; [left; exact A|right; split; [exact A|]; exists i, p; split; [exact B|]; split; [exact C|]; apply X; exact D]).
Qed.
Definition textb {V} (pf : str -> res V) (j : nat) (s : str) : bool :=
  if intcb j then match py_int s with Ok z => intb z s && (- 2 ^ 63 <=? z) && (z <? 2 ^ 63) | Err _ => false end
  else if textcb j then zlen s <=? longest q else match pf s with Ok _ => true | Err _ => false end.
Lemma textb_spec {V} (pf : str -> res V) j s : textb pf j s = true -> exists c, value pf ints strs dcols parts (longest q) j s c.
Proof.
  unfold textb, value. destruct (intcb j) eqn:I.
  - apply intcb_spec in I. destruct (py_int s) as [z|]; [|discriminate]. intros H. rewrite !andb_true_iff, Z.leb_le, Z.ltb_lt in H. destruct H as [[A B] C]. exists (CZ z). left. split; [exact I|]. exists z. split; [apply intb_integer, A|]. split; [lia|reflexivity].
  - destruct (textcb j) eqn:T.
    + apply textcb_spec in T. intros H. apply Z.leb_le in H. exists (CS s). right. left. split; [exact T|]. split; [exact H|reflexivity].
    + destruct (pf s) as [v|]; [|discriminate]. intros _. exists (CF v). right. right. split; [rewrite <- intcb_spec; congruence|]. split; [rewrite <- textcb_spec; congruence|]. exists v. split; reflexivity.
Qed.
Fixpoint textsb {V} (pf : str -> res V) (j : nat) (row : list str) : bool := match row with [] => true | s :: r => textb pf j s && textsb pf (S j) r end.
Lemma row_okb {V} (pf : str -> res V) row : (length row =? length names)%nat && textsb pf 0 row = true -> row_ok pf q ints strs dcols parts names row.
Proof.
  intros H. apply andb_true_iff in H. destruct H as [L H]. apply Nat.eqb_eq in L. split; [exact L|]. intros j s E. apply textb_spec.
  assert (X : forall row k j, textsb pf k row = true -> nth_error row j = Some s -> textb pf (k + j)%nat s = true).
  { clear. induction row as [|w row IH]; intros k j H E; [destruct j; discriminate E|]. cbn [textsb] in H. apply andb_true_iff in H. destruct H as [A B]. destruct j as [|j]; cbn in E.
    - injection E as ->. rewrite Nat.add_0_r. exact A.
    - rewrite <- plus_n_Sm. exact (IH (S k) j B E). }
  exact (X row 0%nat j H E).
Qed.
End Dec.
Lemma nth_two {A} (a b : A) i x : nth_error [a; b] i = Some x -> (i = 0%nat /\ x = a) \/ (i = 1%nat /\ x = b).
Proof. destruct i as [|[|i]]; cbn; intros E; [left|right|destruct i; discriminate E]; injection E as <-; split; reflexivity. Qed.
Lemma sound_two ints strs a b p1 p2 n : forallb (fun j => (j <? n)%nat) (a :: b :: ints ++ strs) && negb (a =? b)%nat && goodb p1 && goodb p2 &&
   (negb (wholeb p1) || (a =? 0)%nat) && (negb (wholeb p2) || (b =? 1)%nat) && negb (wholeb p1 && str_eqb (upper p1) (upper p2)) &&
   (wholeb p1 || negb (nmem a ints)) && (wholeb p2 || negb (nmem b ints)) = true ->
  sound_request ints strs [a; b] [p1; p2] n.
Proof.
  intros H. rewrite !andb_true_iff in H. destruct H as [[[[[[[[L N] G1] G2] W1] W2] ON] O1] O2]. rewrite forallb_forall in L. apply negb_true_iff, Nat.eqb_neq in N.
  assert (LT : forall j, In j (a :: b :: ints ++ strs) -> (j < n)%nat) by (intros j I; apply Nat.ltb_lt, L, I). rewrite orb_true_iff, negb_true_iff, Nat.eqb_eq in W1, W2. rewrite orb_true_iff, negb_true_iff in O1, O2.
  constructor.
  - apply Forall_forall. intros j I. apply LT. right. right. apply in_app_iff. left. exact I.
  - apply Forall_forall. intros j I. apply LT. right. right. apply in_app_iff. right. exact I.
  - apply Forall_cons; [apply LT; cbn; tauto|]. apply Forall_cons; [apply LT; cbn; tauto|apply Forall_nil].
  - apply Forall_cons; [apply goodb_spec, G1|]. apply Forall_cons; [apply goodb_spec, G2|apply Forall_nil].
  - repeat constructor; [intros [E|[]]; congruence|intros []].
  - cbn. lia.
  - assert (D : whole_part p1 -> upper p1 = upper p2 -> False). { intros W E. apply wholeb_spec in W. apply str_eqb_spec in E. rewrite W, E in ON. discriminate ON. }
    intros i i' p p' A A' W E. destruct (nth_two _ _ _ _ A) as [[-> ->]|[-> ->]], (nth_two _ _ _ _ A') as [[-> ->]|[-> ->]]; try reflexivity.
    + exfalso. exact (D W E).
    + exfalso. apply D; [|symmetry; exact E]. unfold whole_part, ignoring_case in *. rewrite <- E. exact W.
  - intros i p A W. apply wholeb_spec in W. destruct (nth_two _ _ _ _ A) as [[-> ->]|[-> ->]]; cbn; f_equal; [destruct W1 as [X|X]|destruct W2 as [X|X]]; congruence.
  - intros i p j A B W. assert (NW : wholeb p = false) by (rewrite <- not_true_iff_false, wholeb_spec; exact W). rewrite <- nmem_spec.
    destruct (nth_two _ _ _ _ A) as [[-> ->]|[-> ->]]; cbn in B; injection B as <-; [destruct O1 as [X|X]|destruct O2 as [X|X]]; congruence.
Qed.

(** Every line consists of its words, and every list of lines of its rows. *)
Lemma spaced_words s : forall w acc, blank w -> Forall (fun c => isspace c = false) acc -> spaced (words acc s) (w ++ rev acc ++ s).
Proof.
  assert (WD : forall acc, acc <> [] -> Forall (fun c => isspace c = false) acc -> word (rev acc)).
  { intros acc N F. split; [intros E; apply N; rewrite <- (rev_involutive acc), E; reflexivity|apply Forall_rev, F]. }
  induction s as [|c s IH]; intros w acc W A; cbn [words].
  - destruct acc as [|a acc]; [cbn [rev app]; rewrite app_nil_r; constructor; exact W|]. apply (sp_last w _ []); [exact W|apply WD; [discriminate|exact A]|constructor].
  - destruct (isspace c) eqn:C.
    + destruct acc as [|a acc].
      * cbn [rev app]. specialize (IH (w ++ [c]) []). rewrite <- app_assoc in IH. apply IH; [apply Forall_app; split; [exact W|constructor; [exact C|constructor]]|constructor].
      * apply sp_word; [exact W|apply WD; [discriminate|exact A]|exact C|]. apply (IH [] []); constructor.
    + specialize (IH w (c :: acc)). cbn [rev] in IH. rewrite <- app_assoc in IH. apply IH; [exact W|constructor; assumption].
Qed.
Lemma before_split l : exists rest, l = before [hash] l ++ rest /\ ~ In hash (before [hash] l) /\ (rest = [] \/ exists c, rest = hash :: c).
Proof.
  induction l as [|c l (rest & E & N & R)]; [exists []; split; [reflexivity|]; split; [intros []|left; reflexivity]|]. unfold before in *. cbn [find prefix].
  destruct (Ascii.eqb_spec hash c) as [<-|NE]; cbn [andb].
  - assert (X : (if match l with [] => true | _ => true end then Some 0%nat else option_map S (find [hash] l)) = Some 0%nat) by (destruct l; reflexivity). rewrite ?X. destruct l; cbn [firstn app]; eexists; (split; [reflexivity|]); (split; [intros []|]); right; eexists; reflexivity.
  - exists rest. destruct (find [hash] l) as [n|]; cbn [option_map firstn app]; (split; [f_equal; exact E|]); (split; [intros [I|I]; [congruence|exact (N I)]|exact R]).
Qed.
Definition rows_of (ls : list str) : list (list str) := filter (fun r : list str => match r with [] => false | _ => true end) (map (fun l => words [] (before [hash] l)) ls).
Lemma lines_read ls : data_lines (rows_of ls) ls.
Proof.
  assert (RL : forall l, row_line (words [] (before [hash] l)) l). { intros l. destruct (before_split l) as (rest & E & N & R). exists (before [hash] l), rest. split; [exact E|]. split; [exact N|]. split; [exact R|]. apply (spaced_words _ [] []); constructor. }
  induction ls as [|l ls IH]; [constructor|]. unfold rows_of. cbn [map filter]. pose proof (RL l) as R. destruct (words [] (before [hash] l)) as [|w ws]; [apply dl_skip; assumption|]. apply dl_row; [discriminate|exact R|exact IH].
Qed.
Lemma names_read_off l : forallb (fun c => negb (Ascii.eqb c hash)) l = true -> names_line (words [] l) (hash :: l) /\ names_line (words [] l) l.
Proof.
  intros H. assert (N : ~ In hash l) by (intros I; rewrite forallb_forall in H; specialize (H _ I); rewrite Ascii.eqb_refl in H; discriminate H).
  split; exists l; (split; [apply (spaced_words _ [] []); constructor|]); (split; [exact N|]); [right|left]; reflexivity.
Qed.
Lemma demo_good : good_request demo_rq [3%nat] [4%nat] [0%nat; 1%nat] demo_parts demo_names.
Proof.
  split; [constructor; try reflexivity; [right; split; [reflexivity|discriminate]|split; reflexivity]|]. split; [apply sound_two; vm_compute; reflexivity|]. split; [apply nodupb_spec; vm_compute; reflexivity|cbn; lia].
Qed.
Lemma demo_named : named demo_rq demo_names demo_file.
Proof. left. split; [reflexivity|]. exists 1%nat, (s2l "# YEAR SOY lat n name"). split; [reflexivity|]. split; [reflexivity|]. exact (proj1 (names_read_off (s2l " YEAR SOY lat n name") eq_refl)). Qed.
Ltac okrow := apply row_okb; vm_compute; reflexivity.
Example C67_hypotheses :
  good_request demo_rq [3%nat] [4%nat] [0%nat; 1%nat] demo_parts demo_names /\ named demo_rq demo_names demo_file /\ data_lines demo_rows (skipn (q_hlines demo_rq) demo_file) /\
  Forall (row_ok txt demo_rq [3%nat] [4%nat] [0%nat; 1%nat] demo_parts demo_names) demo_rows /\ (exists k, time_name demo_names k) /\
  Forall (fun row => exists t, row_instant txt secs [0%nat; 1%nat] demo_parts (with_spaces demo_parts) row t) demo_rows.
Proof.
  split; [exact demo_good|]. split; [exact demo_named|]. split; [exact (lines_read (skipn 2 demo_file))|].
  split; [apply Forall_cons; [okrow|apply Forall_cons; [okrow|apply Forall_nil]]|].
  split; [exists (s2l "datetime"), [], (map s2l ["DATETIME"; "DT"; "dt"]); split; [reflexivity|]; split; [constructor|]; intros I; apply member_spec in I; vm_compute in I; discriminate I|].
  assert (X : forall sy ss y s d r, integer y sy -> integer s ss -> 1000 <= y <= 9998 -> 0 <= s < 366 * 86400 -> year_start y d -> exists t, row_instant txt secs [0%nat; 1%nat] demo_parts (with_spaces demo_parts) (sy :: ss :: r) t).
  { intros sy ss y s d r A B C D E. exists (day_us d + sec_us s). apply instant_soy. exists y, s, sy, ss, d. split; [reflexivity|]. split; [reflexivity|]. split; [exact A|]. split; [exact B|]. split; [lia|]. split; [exact D|]. split; [lia|]. split; [exact E|reflexivity]. }
  apply Forall_cons; [|apply Forall_cons; [|apply Forall_nil]].
  - apply (X _ _ 2001 10 730485); [apply intb_integer; reflexivity|apply intb_integer; reflexivity|lia|lia|apply year_start_spec; split; [lia|reflexivity]].
  - apply (X _ _ 2002 20 730850); [apply intb_integer; reflexivity|apply intb_integer; reflexivity|lia|lia|apply year_start_spec; split; [lia|reflexivity]].
Qed.
(** The year and the second of the year in the second and third columns: the first two columns
    are read as integers, so a table that is fine in every other respect is refused. *)
Definition off_rq : request := rq 1 [1; 2] (Some "YEAR SOY") [] [].
Definition off_file : list str := map s2l ["lat YEAR SOY"; "1.5 2001 10"; "2.5 2002 20"].
Definition off_names : list str := map s2l ["lat"; "YEAR"; "SOY"].
Theorem C67_positions_refuted :
  exists q dcols names lines rows, asks q [] [] dcols [s2l "YEAR"; s2l "SOY"] /\ NoDup names /\ Forall (fun j => (j < length names)%nat) dcols /\ NoDup dcols /\ named q names lines /\
    data_lines rows (skipn (q_hlines q) lines) /\ Forall (row_ok txt q [] [] dcols [s2l "YEAR"; s2l "SOY"] names) rows /\
    Forall (fun row => exists t, row_instant txt secs dcols [s2l "YEAR"; s2l "SOY"] (s2l "YEAR SOY") row t) rows /\
    load_ascii txt secs q true 100 lines = Err ValueError.
Proof.
  exists off_rq, [1%nat; 2%nat], off_names, off_file, [map s2l ["1.5"; "2001"; "10"]; map s2l ["2.5"; "2002"; "20"]].
  split; [constructor; try reflexivity; [right; split; [reflexivity|discriminate]|split; reflexivity]|]. split; [apply nodupb_spec; vm_compute; reflexivity|]. split; [apply Forall_cons; [cbn; lia|apply Forall_cons; [cbn; lia|apply Forall_nil]]|].
  split; [apply NoDup_cons; [intros [E|[]]; discriminate E|apply NoDup_cons; [intros []|constructor]]|].
  split; [left; split; [reflexivity|]; exists 0%nat, (s2l "lat YEAR SOY"); split; [reflexivity|]; split; [reflexivity|]; exact (proj2 (names_read_off (s2l "lat YEAR SOY") eq_refl))|].
  split; [exact (lines_read (skipn 1 off_file))|]. split; [apply Forall_cons; [okrow|apply Forall_cons; [okrow|apply Forall_nil]]|]. split; [|vm_compute; reflexivity].
  assert (X : forall w sy ss y s d, integer y sy -> integer s ss -> 1000 <= y <= 9998 -> 0 <= s < 366 * 86400 -> year_start y d -> exists t, row_instant txt secs [1%nat; 2%nat] [s2l "YEAR"; s2l "SOY"] (s2l "YEAR SOY") [w; sy; ss] t).
  { intros w sy ss y s d A B C D E. exists (day_us d + sec_us s). apply (instant_soy txt secs 1 2). exists y, s, sy, ss, d. split; [reflexivity|]. split; [reflexivity|]. split; [exact A|]. split; [exact B|]. split; [lia|]. split; [exact D|]. split; [lia|]. split; [exact E|reflexivity]. }
  apply Forall_cons; [|apply Forall_cons; [|apply Forall_nil]].
  - apply (X _ _ _ 2001 10 730485); [apply intb_integer; reflexivity|apply intb_integer; reflexivity|lia|lia|apply year_start_spec; split; [lia|reflexivity]].
  - apply (X _ _ _ 2002 20 730850); [apply intb_integer; reflexivity|apply intb_integer; reflexivity|lia|lia|apply year_start_spec; split; [lia|reflexivity]].
Qed.
(** The caller's list of integer columns is changed, and a second call with it reads other columns. *)
Theorem C67_list_changed_refuted :
  exists q lines q2 lines2 o, load_ascii txt secs q true 100 lines = Ok o /\ o_int o <> q_int q /\
    q_int q2 = q_int q /\ (exists o2, load_ascii txt secs q2 true 100 lines2 = Ok o2) /\
    load_ascii txt secs (mkReq (q_hlines q2) (q_comments q2) (q_hsplit q2) (q_dtcols q2) (q_fmt q2) (o_int o) (q_str q2) (q_max q2) (q_header q2)) true 100 lines2 = Err ValueError.
Proof.
  exists (rq 1 [0; 1] (Some "YEAR SOY") [] []), (map s2l ["YEAR SOY lat"; "2001 10 1.5"; "2002 20 2.5"]), (rq 1 [] None [] []), (map s2l ["a b"; "1.5 2.5"; "3.5 4.5"]). eexists.
  split; [vm_compute; reflexivity|]. split; [vm_compute; discriminate|]. split; [reflexivity|]. split; [eexists; vm_compute; reflexivity|]. vm_compute. reflexivity.
Qed.
Example C108_case :
  (exists o, load_ascii txt secs (rq 1 [2; 1] (Some "%Y-%m-%d %H:%M:%S") [] []) true 100 (map s2l ["lat time date"; "1 01:02:03 2000-05-05"; "2 00:00:01 2000-05-05"]) = Ok o /\
     lookup "datetime" (o_data o) = Some [CT (day_us 730244 + sec_us 3723); CT (day_us 730244 + sec_us 1)]) /\
  date_and_tod 2 1 (map s2l ["1"; "01:02:03"; "2000-05-05"]) (day_us 730244 + sec_us 3723) /\
  (exists o, load_ascii txt secs (rq 1 [2; 1] (Some "%Y-%m-%d SOD") [] []) true 100 (map s2l ["lat sod date"; "1 3723 2000-05-05"; "2 1 2000-05-05"]) = Ok o /\
     lookup "datetime" (o_data o) = Some [CT (day_us 730244 + sec_us 3723); CT (day_us 730244 + sec_us 1)]).
Proof.
  split; [eexists; split; vm_compute; reflexivity|]. split; [|eexists; split; vm_compute; reflexivity].
  exists 2000, 5, 5, 730244, 1, 2, 3, (s2l "2000-05-05"), (s2l "01:02:03"). split; [reflexivity|]. split; [reflexivity|]. split; [apply calendar_day_spec; repeat split; try lia; vm_compute; congruence|]. split; [exact may5_text|].
  split; [lia|]. split; [lia|]. split; [lia|]. split; [|reflexivity]. exists (s2l "01"), (s2l "02"), (s2l "03").
  assert (D : forall a b x y, is_digit_of a x -> is_digit_of b y -> date2 [a; b] (10 * x + y)) by (intros a b x y A B; exists a, b, x, y; tauto).
  split; [apply (D "0"%char "1"%char 0 1); split; [lia|reflexivity|lia|reflexivity]|]. split; [apply (D "0"%char "2"%char 0 2); split; [lia|reflexivity|lia|reflexivity]|]. split; [apply (D "0"%char "3"%char 0 3); split; [lia|reflexivity|lia|reflexivity]|reflexivity].
Qed.
Example C109_case :
  (exists o, load_ascii txt secs (rq 1 [] None [] []) true 100 (map s2l ["a b"; "1.5 2.5"]) = Ok o /\
     o_data o = [(s2l "a", [CF (s2l "1.5"); CF (s2l "2.5")]); (s2l "b", [CF (s2l "1.5"); CF (s2l "2.5")])]) /\
  load_ascii txt secs (rq 1 [0; 1] (Some "YEAR SOY") [] []) true 100 (map s2l ["YEAR SOY"; "2001 10"]) = Err AttributeError.
Proof. split; [eexists; split; vm_compute; reflexivity|vm_compute; reflexivity]. Qed.
Example C110_case :
  load_ascii txt secs (rq 1 [] None [] []) true 100 (map s2l ["a b"; "# nothing"]) = Err IndexError /\
  load_ascii txt secs (rq 1 [] None [] []) true 100 (map s2l ["a b"; "1 2"; "3"]) = Err ValueError.
Proof. split; vm_compute; reflexivity. Qed.
Example C111_case :
  load_ascii txt secs (rq 1 [4; 5] (Some "%Y-%m-%d SOD") [] []) true 100 (map s2l ["datetime DATETIME DT dt d s"; "1 2 3 4 2000-05-05 6"; "1 2 3 4 2000-05-05 6"]) = Err IndexError.
Proof. vm_compute. reflexivity. Qed.

Print Assumptions C67_column_types_partial.
Print Assumptions C67_list_kept_partial.
Print Assumptions C67_positions_refuted.
Print Assumptions C67_list_changed_refuted.
Print Assumptions C108_date_and_time_of_day.
Print Assumptions C108_date_and_seconds.
Print Assumptions C108_year_and_seconds_partial.
Print Assumptions C109_single_row_refuted.
Print Assumptions C109_single_row_times_refuted.
Print Assumptions C110_no_rows.
Print Assumptions C110_ragged_rows.
Print Assumptions C110_file_refused.
Print Assumptions C111_names_taken.
