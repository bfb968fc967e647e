(** C126: the files written by supermag2ascii_ocb and vort2ascii_ocb read back by
    general.load_ascii_data. *)
From Coq Require Import String Ascii ZArith QArith Qabs List Bool Lia Lqa Sorted.
From Verif Require Import PyBase TimeModel TimeSpec TimeProofs TimeProofs3 TextSpec TextProofs FilesModel FilesProofs SmagModel SmagSpec VortModel VortSpec CycleModel CycleSpec CycleProofs DriverModel DriverSpec DriverProofs
  PysatModel PysatSpec GeneralModel GeneralSpec GeneralProofs LoadProofs PropertiesCycle PropertiesGeneral PropertiesSmag PropertiesVort PropertiesPysat OutputModel OutputSpec OutputProofs OutputProofs2 OutputProofs3 OutputProofs4 OutputProofs5 PropertiesOutput PropertiesOutput2.
Import ListNotations.
Open Scope string_scope.
Open Scope list_scope.
Open Scope Z_scope.

(** ** Lines without a hash *)
Definition plain (s : str) : Prop := ~ In hash s.
Lemma plain_app a b : plain a -> plain b -> plain (a ++ b).
Proof. intros A B I. apply in_app_or in I. destruct I; contradiction. Qed.
Lemma plain_cons c s : c <> hash -> plain s -> plain (c :: s).
Proof. intros N P [E|I]; [congruence|exact (P I)]. Qed.
Lemma plain_nil : plain []. Proof. intros []. Qed.
Lemma plain_blank w : blank w -> plain w.
Proof. intros B I. unfold blank in B. rewrite Forall_forall in B. apply B in I. discriminate I. Qed.
Lemma plain_digit c n : is_digit_of c n -> c <> hash.
Proof. intros [R E] ->. change (code hash) with 35 in E. lia. Qed.
Lemma plain_written v s : written v s -> plain s.
Proof. induction 1 as [c n D|s c v n W IH D]; [|apply plain_app; [exact IH|]]; (apply plain_cons; [exact (plain_digit _ _ D)|exact plain_nil]). Qed.
Lemma plain_integer v s : integer v s -> plain s.
Proof. intros [W|(t & -> & W)]; [|apply plain_cons; [discriminate|]]; exact (plain_written _ _ W). Qed.
Lemma plain_decimal n z s : decimal n z s -> plain s.
Proof. intros (w & f & a & b & -> & A & B & _). apply plain_app; [exact (plain_written _ _ A)|]. apply plain_cons; [discriminate|exact (plain_written _ _ B)]. Qed.
Lemma plain_shows n x s : shows n x s -> plain s.
Proof.
  assert (K : forall l : string, forallb (fun c => negb (Ascii.eqb c hash)) (s2l l) = true -> plain (s2l l)).
  { intros l F I. rewrite forallb_forall in F. apply F in I. rewrite Ascii.eqb_refl in I. discriminate I. }
  destruct x as [| |q|]; cbn [shows]; try (intros ->; apply K; reflexivity). intros (z & [D|(t & -> & D)] & _); [|apply plain_cons; [discriminate|]]; exact (plain_decimal _ _ _ D).
Qed.
Lemma plain_date2 s v : date2 s v -> plain s.
Proof. intros (c1 & c2 & a & b & -> & A & B & _). repeat (apply plain_cons; [eapply plain_digit; eassumption|]). exact plain_nil. Qed.
Lemma plain_date4 s v : date4 s v -> plain s.
Proof. intros (c1 & c2 & c3 & c4 & a & b & c & d & -> & A & B & C & D & _). repeat (apply plain_cons; [eapply plain_digit; eassumption|]). exact plain_nil. Qed.
Lemma plain_clock t date tod : clock t date tod -> plain date /\ plain tod /\ zlen date <= 10 /\ zlen tod <= 10.
Proof.
  intros (y & m & d & n & h & mi & sc & _ & (sy & sm & sd & A & B & C & ->) & (sh & si & ss & A' & B' & C' & ->) & _). split; [|split].
  - apply plain_app; [exact (plain_date4 _ _ A)|]. apply plain_cons; [discriminate|]. apply plain_app; [exact (plain_date2 _ _ B)|]. apply plain_cons; [discriminate|exact (plain_date2 _ _ C)].
  - apply plain_app; [exact (plain_date2 _ _ A')|]. apply plain_cons; [discriminate|]. apply plain_app; [exact (plain_date2 _ _ B')|]. apply plain_cons; [discriminate|exact (plain_date2 _ _ C')].
  - destruct A as (? & ? & ? & ? & ? & ? & ? & ? & -> & _), B as (? & ? & ? & ? & -> & _), C as (? & ? & ? & ? & -> & _), A' as (? & ? & ? & ? & -> & _), B' as (? & ? & ? & ? & -> & _), C' as (? & ? & ? & ? & -> & _). split; cbn; lia.
Qed.
Lemma plain_spaced ws s : spaced ws s -> Forall plain ws -> plain s.
Proof.
  induction 1 as [w W|w t v W T V|w t c ts s W T C S IH]; intros F.
  - exact (plain_blank _ W).
  - inversion F; subst. apply plain_app; [exact (plain_blank _ W)|]. apply plain_app; [assumption|exact (plain_blank _ V)].
  - inversion F; subst. apply plain_app; [exact (plain_blank _ W)|]. apply plain_app; [assumption|]. apply plain_cons; [intros ->; discriminate C|]. apply IH. assumption.
Qed.
(** Taking the hash off a line of names. *)
Lemma spaced_behead t ts body : t <> [] -> spaced ((hash :: t) :: ts) (hash :: body) -> spaced (t :: ts) body.
Proof.
  intros NT H. inversion H as [|w t' v W T V E1 E2|w t' c ts' s' W T C SP E1 E2]; subst.
  - destruct w as [|x w]; [|injection E2 as -> _; apply Forall_inv in W; discriminate W]. cbn in E2. injection E2 as <-. change (spaced [t] ([] ++ t ++ v)). constructor; [constructor|split; [exact NT|]|exact V]. destruct T as [_ T]. inversion T; assumption.
  - destruct w as [|x w]; [|injection E2 as -> _; apply Forall_inv in W; discriminate W]. cbn in E2. injection E2 as <-. change (spaced (t :: ts) ([] ++ t ++ c :: s')). constructor; [constructor|split; [exact NT|]|exact C|exact SP]. destruct T as [_ T]. inversion T; assumption.
Qed.
Lemma rows_lines (rows : list (list str)) lines : Forall2 (fun ws l => ws <> [] /\ Forall plain ws /\ spaced ws l) rows lines -> data_lines rows lines.
Proof.
  induction 1 as [|ws l rows lines (N & P & SP) F IH]; [constructor|]. constructor; [exact N| |exact IH]. exists l, []. rewrite app_nil_r. split; [reflexivity|]. split; [exact (plain_spaced _ _ SP P)|]. split; [left; reflexivity|exact SP].
Qed.

(** ** Reading numbers back *)
(** [float] on a text with decimals gives the number the text denotes. *)
Definition reads (pf : str -> res num) : Prop :=
  (forall n z s, signed n z s -> exists q, pf s = Ok (Fin q) /\ (q * inject_Z (10 ^ Z.of_nat n) == inject_Z z)%Q) /\
  pf (s2l "nan") = Ok NaN /\ pf (s2l "inf") = Ok PInf /\ pf (s2l "-inf") = Ok NInf.
(** The number, but for rounding to [n] decimals. *)
Definition rounded (n : nat) (x : num) (c : cell num) : Prop :=
  match x with
  | Fin q => exists r, c = CF (Fin r) /\ (Qabs (q * inject_Z (10 ^ Z.of_nat n) - r * inject_Z (10 ^ Z.of_nat n)) <= 1 # 2)%Q
  | y => c = CF y
  end.
Lemma reads_shows pf n x s : reads pf -> shows n x s -> exists v, pf s = Ok v /\ rounded n x (CF v).
Proof.
  intros (R & R1 & R2 & R3). destruct x as [| |q|]; cbn [shows rounded]; try (intros ->; eexists; split; [eassumption|reflexivity]).
  intros (z & SG & A). destruct (R _ _ _ SG) as (r & E & EQ). exists (Fin r). split; [exact E|]. exists r. split; [reflexivity|]. rewrite EQ. exact A.
Qed.

(** ** The request *)
Definition back (ints strs : list nat) (mxl : Z) : request :=
  mkReq 1 None None [0; 1] (Some (s2l "%Y-%m-%d %H:%M:%S")) (map Z.of_nat ints) (map Z.of_nat strs) mxl [].
Section Back.
Context (pf2 : str -> res num) (toQ : num -> res Q) (ints strs : list nat) (mxl : Z) (names : list str).
Let q := back ints strs mxl.
Context (good : good_request q ints strs [0; 1]%nat [ymd; hms] names).
Context (notime : ~ In (s2l "datetime") names).
Lemma longest_back : 17 <= longest q /\ mxl <= longest q.
Proof. unfold longest, q, back. cbn [q_fmt q_max]. change (get_datetime_fmt_len (s2l "%Y-%m-%d %H:%M:%S")) with 19. lia. Qed.
Lemma read_back {P} size head lines (l : list P) (time : P -> Z) (words : P -> list str -> Prop) :
  0 < size <= 2000000000 -> names_line names head -> (2 <= length l)%nat ->
  Forall2 (fun p line => exists ws, spaced ws line /\ words p ws) l lines ->
  (forall p ws, In p l -> words p ws -> Forall plain ws /\ length ws = length names /\ (exists date tod r, ws = date :: tod :: r /\ clock (time p) date tod) /\
     forall j s, (2 <= j)%nat -> nth_error ws j = Some s -> exists c, value pf2 ints strs [0; 1]%nat [ymd; hms] (longest q) j s c) ->
  exists o, load_ascii pf2 toQ q true size (head :: lines) = Ok o /\ map fst (o_data o) = names ++ [s2l "datetime"] /\
    lookup (s2l "datetime") (o_data o) = Some (map (fun p => CT (time p)) l) /\
    forall j name, nth_error names j = Some name -> exists cells, lookup name (o_data o) = Some cells /\
      Forall2 (fun p c => exists ws s, words p ws /\ nth_error ws j = Some s /\ value pf2 ints strs [0; 1]%nat [ymd; hms] (longest q) j s c) l cells.
Proof.
  intros SZ NL L2 F HW.
  assert (R : exists rows, Forall2 (fun ws l => ws <> [] /\ Forall plain ws /\ spaced ws l) rows lines /\ Forall2 (fun p ws => In p l /\ words p ws) l rows).
  { assert (K : forall l', (forall p, In p l' -> In p l) -> forall lines', Forall2 (fun p line => exists ws, spaced ws line /\ words p ws) l' lines' ->
       exists rows, Forall2 (fun ws l => ws <> [] /\ Forall plain ws /\ spaced ws l) rows lines' /\ Forall2 (fun p ws => In p l /\ words p ws) l' rows).
    { intros l' I lines' F'. induction F' as [|p line l' lines' (ws & SP & W) F' IH]; [exists []; split; constructor|]. destruct IH as (rows & A & B); [intros x J; apply I; right; exact J|].
      destruct (HW p ws (I p (or_introl eq_refl)) W) as (PL & LN & (date & tod & r & E & _) & _). exists (ws :: rows). split; constructor; try assumption; [split; [rewrite E; discriminate|split; assumption]|split; [apply I; left; reflexivity|exact W]]. }
    exact (K l (fun p I => I) lines F). }
  destruct R as (rows & A & B). assert (EW : with_spaces [ymd; hms] = s2l "%Y-%m-%d %H:%M:%S") by reflexivity.
  assert (RO : Forall (row_ok pf2 q ints strs [0; 1]%nat [ymd; hms] names) rows).
  { clear - B HW good. induction B as [|p ws l' rows [I W] B IH]; constructor; [|exact IH]. destruct (HW p ws I W) as (_ & LN & (date & tod & r & E & CL) & V). split; [exact LN|].
    destruct (plain_clock _ _ _ CL) as (_ & _ & L1 & L2). pose proof longest_back as [LB _].
    assert (TC : forall j, (j < 2)%nat -> (forall s, nth_error ws j = Some s -> zlen s <= longest q) -> forall s, nth_error ws j = Some s -> exists c, value pf2 ints strs [0; 1]%nat [ymd; hms] (longest q) j s c).
    { intros j J H s N. exists (CS s). right. left. split; [|split; [exact (H s N)|reflexivity]]. destruct good as (_ & SR & _). right. split.
      - apply (sr_other _ _ _ _ _ SR j (nth j [ymd; hms] [])); destruct j as [|[|j]]; try lia; try reflexivity; intros [X|X]; discriminate X.
      - exists j, (nth j [ymd; hms] []). destruct j as [|[|j]]; try lia; (split; [reflexivity|]; split; [reflexivity|]; split; [intros [X|X]; discriminate X|intros X; discriminate X]). }
    intros [|[|j]] s N.
    - apply TC; [lia| |exact N]. intros s' N'. rewrite E in N'. injection N' as <-. lia.
    - apply TC; [lia| |exact N]. intros s' N'. rewrite E in N'. injection N' as <-. lia.
    - apply V; [lia|exact N]. }
  assert (RI : Forall2 (fun p ws => row_instant pf2 toQ [0; 1]%nat [ymd; hms] (with_spaces [ymd; hms]) ws (time p)) l rows).
  { eapply F2_impl; [|exact B]. intros p ws [I W]. destruct (HW p ws I W) as (_ & _ & (date & tod & r & -> & CL) & _). apply (instant_tod pf2 toQ 0%nat 1%nat).
    destruct CL as (y & m & d & n & h & mi & sc & C1 & C2 & C3 & C4 & C5 & C6 & ->). exists y, m, d, n, h, mi, sc, date, tod. repeat (split; [first [reflexivity|assumption]|]). f_equal. f_equal. lia. }
  assert (LR : length rows = length l) by (symmetry; exact (F2_length _ _ _ B)).
  destruct (C67_column_types_partial num pf2 toQ q ints strs [0; 1]%nat [ymd; hms] names size (head :: lines) rows good SZ) as (o & hs & added & E & _ & _ & _ & _ & COL & _ & TIME).
  - left. split; [reflexivity|]. exists 0%nat, head. split; [reflexivity|]. split; [reflexivity|exact NL].
  - apply rows_lines. exact A.
  - lia.
  - exact RO.
  - intros _. split; [exists (s2l "datetime"); exists [], (map s2l ["DATETIME"; "DT"; "dt"]); split; [reflexivity|]; split; [constructor|exact notime]|].
    clear - RI. induction RI as [|p ws l rows H F IH]; constructor; [eexists; exact H|exact IH].
  - exists o. split; [exact E|]. destruct (TIME ltac:(discriminate)) as (k & ts & TN & FST & LK & FT).
    assert (EK : k = s2l "datetime"). { destruct TN as (a & b & EA & FA & _). destruct a as [|x a]; [injection EA as <- _; reflexivity|]. injection EA as <- _. inversion FA; subst. contradiction. }
    subst k. split; [exact FST|]. split.
    + rewrite LK. f_equal. assert (ET : ts = map time l); [|rewrite ET, map_map; reflexivity].
      clear - FT RI. revert ts FT. induction RI as [|p ws l rows H F IH]; intros ts FT; inversion FT; subst; [reflexivity|]. cbn [map]. f_equal; [eapply row_instant_fun; eassumption|apply IH; assumption].
    + intros j name N. destruct (COL j name N) as (cells & LC & FC). exists cells. split; [exact LC|]. clear - FC B. revert cells FC.
      induction B as [|p ws l0 rows [I W] B IH]; intros cells FC; inversion FC as [|? c ? cells' (s & NS & V) FC']; subst; constructor; [exists ws, s; split; [exact W|split; assumption]|apply IH; exact FC'].
Qed.
End Back.

(** ** C126 *)
Definition smag_names : list str := map s2l
  ["DATE"; "TIME"; "NST"; "STID"; "SML"; "SMU"; "SZA"; "MLAT"; "MLT"; "BMAG"; "BN"; "BE"; "BZ"; "OCB_MLAT"; "OCB_MLT"; "OCB_BMAG"; "OCB_BN"; "OCB_BE"; "OCB_BZ"].
Lemma integer_fun z z' s : integer z s -> integer z' s -> z = z'.
Proof. intros A B. apply py_int_integer in A. apply py_int_integer in B. rewrite A in B. injection B as <-. reflexivity. Qed.
Section Columns.
Context (ints strs : list nat).
Lemma int_col j : ~ In j strs -> (integer_column ints strs [0; 1]%nat [ymd; hms] j <-> In j ints).
Proof.
  intros NS. split.
  - intros [_ [I|(i & p & A & B & W)]]; [exact I|]. exfalso. destruct (nth_two _ _ _ _ B) as [[_ ->]|[_ ->]]; destruct W as [W|W]; discriminate W.
  - intros I. split; [exact NS|left; exact I].
Qed.
Lemma text_col j : (2 <= j)%nat -> (text_column ints strs [0; 1]%nat [ymd; hms] j <-> In j strs).
Proof.
  intros J. split; [|intros I; left; exact I]. intros [I|(_ & i & p & A & _)]; [exact I|]. exfalso. destruct (nth_two _ _ _ _ A) as [[_ X]|[_ X]]; lia.
Qed.
Lemma value_int (pf : str -> res num) m j s c : (2 <= j)%nat -> In j ints -> ~ In j strs -> value pf ints strs [0; 1]%nat [ymd; hms] m j s c -> forall z, integer z s -> c = CZ z.
Proof.
  intros J I N [(_ & z' & Z & _ & ->)|[(T & _)|(NI & _)]] z Z'; [f_equal; exact (integer_fun _ _ _ Z Z')| |].
  - apply text_col in T; [contradiction|exact J].
  - exfalso. apply NI, int_col; assumption.
Qed.
Lemma value_text (pf : str -> res num) m j s c : (2 <= j)%nat -> In j strs -> value pf ints strs [0; 1]%nat [ymd; hms] m j s c -> c = CS s.
Proof. intros J I [((N & _) & _)|[(_ & _ & ->)|(_ & N & _)]]; [contradiction|reflexivity|exfalso; apply N; left; exact I]. Qed.
Lemma value_num (pf : str -> res num) m j s c : (2 <= j)%nat -> ~ In j ints -> ~ In j strs -> value pf ints strs [0; 1]%nat [ymd; hms] m j s c -> exists v, pf s = Ok v /\ c = CF v.
Proof.
  intros J NI NS [(I & _)|[(T & _)|(_ & _ & R)]]; [|apply text_col in T; [contradiction|exact J]|exact R].
  apply int_col in I; [contradiction|exact NS].
Qed.
Lemma num_value (pf : str -> res num) m j s v : (2 <= j)%nat -> ~ In j ints -> ~ In j strs -> pf s = Ok v -> value pf ints strs [0; 1]%nat [ymd; hms] m j s (CF v).
Proof. intros J NI NS E. right. right. rewrite int_col, text_col by assumption. split; [exact NI|]. split; [exact NS|]. exists v. split; [exact E|reflexivity]. Qed.
Lemma int_value (pf : str -> res num) m j s z : In j ints -> ~ In j strs -> integer z s -> - 2 ^ 63 <= z < 2 ^ 63 -> value pf ints strs [0; 1]%nat [ymd; hms] m j s (CZ z).
Proof. intros I N Z R. left. split; [apply int_col; assumption|]. exists z. split; [exact Z|]. split; [exact R|reflexivity]. Qed.
End Columns.
Lemma named_line names head : forallb (fun c => negb (Ascii.eqb c hash)) (concat names) = true -> (exists b, head = hash :: b) ->
  (forall d, spaced (match names with n :: r => (hash :: n) :: r | [] => d end) head) -> (match names with n :: _ => n <> [] | [] => False end) -> names_line names head.
Proof.
  intros P (b & ->) SP NE. destruct names as [|n r]; [destruct NE|]. exists b. specialize (SP []). apply (spaced_behead _ _ _ NE) in SP. split; [exact SP|]. split; [|right; reflexivity].
  apply (plain_spaced _ _ SP). apply Forall_forall. intros w W I. rewrite forallb_forall in P. assert (J : In hash (concat (n :: r))) by (apply in_concat; exists w; split; assumption). apply P in J. rewrite Ascii.eqb_refl in J. discriminate J.
Qed.

Section ReadSupermag.
Context (pf : str -> res num) (nanfill : num -> num) (make : num -> Z -> Z -> res boundary) (conv : Z -> mrow -> mvec).
Context (pf2 : str -> res num) (toQ : num -> res Q).
(** The written numbers of a station. *)
Definition smag_numbers (r : mrow) (v : mvec) : list num :=
  [m_sza r; m_mlat r; m_mlt r; x_mag v; m_bn r; m_be r; m_bz r; x_lat v; x_mlt v; x_omag v; x_n v; x_e v; x_z v].
(** With two or more stations the file can be read back as a table, with the times of the
    stations, their names, the numbers of stations and indices, and the rounded numbers. *)
Theorem C126_supermag_read_back_partial size hs bs liness hemisphere given max_sdiff mn mx ks h b U T head lines mxl size2 :
  smag_input pf nanfill make size hs bs liness hemisphere given max_sdiff ks h b U T -> ~ apart b T max_sdiff mn mx ks ->
  supermag2ascii pf nanfill make conv true size (hs ++ concat liness) true hemisphere given max_sdiff mn mx ks = Ok (Some (head :: lines)) ->
  reads pf2 -> 0 < size2 <= 2000000000 -> (2 <= length lines)%nat -> zlen U < 2 ^ 63 ->
  (forall m row, In m U -> measured nanfill m row -> ~ In hash (m_id row) /\ zlen (m_id row) <= mxl /\ - 2 ^ 63 <= m_sml row < 2 ^ 63 /\ - 2 ^ 63 <= m_smu row < 2 ^ 63) ->
  exists o l stations, load_ascii pf2 toQ (mkReq 1 None None [0; 1] (Some (s2l "%Y-%m-%d %H:%M:%S")) [2; 4; 5] [3] mxl []) true size2 (head :: lines) = Ok o /\
    paired b T max_sdiff mn mx ks l /\ Forall2 (fun p row => exists m, nth_error U (Z.to_nat (fst p)) = Some m /\ measured nanfill m row) l stations /\
    map fst (o_data o) = smag_names ++ [s2l "datetime"] /\
    lookup (s2l "datetime") (o_data o) = Some (map (fun row => CT (m_time row)) stations) /\
    lookup (s2l "NST") (o_data o) = Some (map (fun row => CZ (times_at T (m_time row))) stations) /\
    lookup (s2l "STID") (o_data o) = Some (map (fun row => CS (m_id row)) stations) /\
    lookup (s2l "SML") (o_data o) = Some (map (fun row => CZ (m_sml row)) stations) /\
    lookup (s2l "SMU") (o_data o) = Some (map (fun row => CZ (m_smu row)) stations) /\
    forall j name, nth_error (skipn 6 smag_names) j = Some name -> exists cells, lookup name (o_data o) = Some cells /\
      Forall2 (fun pr c => exists x, nth_error (smag_numbers (snd pr) (conv (snd (fst pr)) (snd pr))) j = Some x /\ rounded 2 x c) (combine l stations) cells.
Proof.
  intros I ND E RD SZ L2 UL OK. pose proof I as (_ & _ & _ & _ & _ & _ & _ & _ & FT).
  destruct (C118_supermag_lines_partial pf nanfill make conv _ _ _ _ _ _ _ mn mx _ _ _ _ _ I ND) as (head' & l & lines' & E' & HW & P & FL). rewrite E in E'. injection E' as <- <-.
  assert (RG : forall p, In p l -> 0 <= fst p) by (intros [i r] J; apply P in J; cbn [fst]; lia).
  assert (EH : exists bd, head = hash :: bd).
  { clear - E. unfold supermag2ascii in E.
    repeat (match type of E with context [if ?x then _ else _] => destruct x | context [bind ?x _] => destruct x; cbn [bind] in E | context [let '(_, _) := ?x in _] => destruct x end; try discriminate E).
    all: injection E as <- <-; eexists; reflexivity. }
  assert (ST : exists stations, Forall2 (fun p row => exists m, nth_error U (Z.to_nat (fst p)) = Some m /\ measured nanfill m row) l stations /\
     Forall2 (fun pr line => exists ws, spaced ws line /\ smag_words (snd pr) (times_at T (m_time (snd pr))) (conv (snd (fst pr)) (snd pr)) ws) (combine l stations) lines).
  { clear - FL. induction FL as [|p line l lines (m & row & ws & NM & MR & SP & W) FL (sts & A & B)]; [exists []; split; constructor|].
    exists (row :: sts). split; [constructor; [exists m; split; assumption|exact A]|]. cbn [combine]. constructor; [exists ws; split; assumption|exact B]. }
  destruct ST as (stations & SA & SB). assert (LS : length l = length stations) by exact (F2_length _ _ _ SA). assert (LC : length (combine l stations) = length l) by (rewrite combine_length, <- LS; apply Nat.min_id).
  assert (INS : forall pr, In pr (combine l stations) -> exists m, In m U /\ measured nanfill m (snd pr)).
  { clear - SA. induction SA as [|p row l sts (m & N & MR) SA IH]; intros pr J; [destruct J|]. destruct J as [<-|J]; [exists m; split; [eapply nth_error_In; exact N|exact MR]|exact (IH pr J)]. }
  set (q := back [2; 4; 5]%nat [3%nat] mxl).
  assert (GR : good_request q [2; 4; 5]%nat [3%nat] [0; 1]%nat [ymd; hms] smag_names).
  { split; [|split; [apply sound_two; reflexivity|split; [|cbn; lia]]].
    - constructor; try reflexivity; [right; split; [reflexivity|discriminate]|split; reflexivity].
    - unfold smag_names. repeat (constructor; [cbn; intuition discriminate|]). constructor. }
  assert (NL : names_line smag_names head).
  { apply named_line; [reflexivity|exact EH|intros d; exact HW|discriminate]. }
  assert (LEN : zlen T = zlen U) by (unfold zlen; rewrite (F2_length _ _ _ FT); reflexivity).
  assert (TA : forall t, 0 <= times_at T t <= zlen T).
  { intros t. unfold times_at, zlen. split; [lia|]. apply inj_le. clear. induction T as [|x T IH]; cbn [filter length]; [lia|]. destruct (t =? x); cbn [length]; lia. }
  destruct (read_back pf2 toQ _ _ mxl _ GR ltac:(cbn; intuition discriminate) size2 head lines (combine l stations) (fun pr => m_time (snd pr))
     (fun pr ws => smag_words (snd pr) (times_at T (m_time (snd pr))) (conv (snd (fst pr)) (snd pr)) ws) SZ NL) as (o & EO & FST & LT & COL).
  - rewrite (F2_length _ _ _ SB). exact L2.
  - exact SB.
  - intros [p row] ws J (date & tod & wn & wl & wu & fs & -> & CL & IN & IL & IU & FS). cbn [fst snd] in *. destruct (INS _ J) as (m & IM & MR). cbn [snd] in MR. destruct (OK m row IM MR) as (NH & LI & RL & RU).
    destruct (plain_clock _ _ _ CL) as (P1 & P2 & _). split; [|split; [|split; [exists date, tod; eexists; split; [reflexivity|exact CL]|]]].
    + do 2 (constructor; [assumption|]). constructor; [exact (plain_integer _ _ IN)|]. constructor; [exact NH|]. constructor; [exact (plain_integer _ _ IL)|]. constructor; [exact (plain_integer _ _ IU)|].
      clear - FS. induction FS as [|x s xs fs H FS IH]; constructor; [exact (plain_shows _ _ _ H)|exact IH].
    + apply F2_length in FS. cbn [length] in *. rewrite <- FS. reflexivity.
    + intros j s J2 N. destruct j as [|[|[|[|[|[|j]]]]]]; try lia; cbn [nth_error] in N; try (injection N as <-).
      * eexists. apply int_value; [cbn; tauto|cbn; intuition discriminate|exact IN|]. specialize (TA (m_time row)). lia.
      * exists (CS (m_id row)). right. left. split; [left; left; reflexivity|]. split; [|reflexivity]. pose proof (longest_back [2; 4; 5]%nat [3%nat] mxl). lia.
      * eexists. apply int_value; [cbn; tauto|cbn; intuition discriminate|exact IL|exact RL].
      * eexists. apply int_value; [cbn; tauto|cbn; intuition discriminate|exact IU|exact RU].
      * destruct (F2_nth_r _ _ _ _ _ FS N) as (x & _ & SX). destruct (reads_shows pf2 2 x s RD SX) as (v & EV & _). exists (CF v). apply num_value; [lia|cbn; intuition lia|cbn; intuition lia|exact EV].
  - exists o, l, stations. split; [exact EO|]. split; [exact P|]. split; [exact SA|]. split; [exact FST|].
    assert (MS : forall {B} (f : mrow -> B), map (fun pr : (Z * Z) * mrow => f (snd pr)) (combine l stations) = map f stations).
    { intros B f. rewrite <- (map_map snd f). f_equal. clear - LS. revert stations LS. induction l as [|x l IH]; intros [|y sts] L; try discriminate L; [reflexivity|]. cbn. f_equal. apply IH. injection L as L. exact L. }
    split; [rewrite LT; f_equal; exact (MS _ (fun row => CT (m_time row)))|].
    assert (FX : forall j name (f : mrow -> cell num), nth_error smag_names j = Some name ->
       (forall (pr : (Z * Z) * mrow) ws s c, smag_words (snd pr) (times_at T (m_time (snd pr))) (conv (snd (fst pr)) (snd pr)) ws -> nth_error ws j = Some s -> value pf2 [2; 4; 5]%nat [3%nat] [0; 1]%nat [ymd; hms] (longest q) j s c -> c = f (snd pr)) ->
       lookup name (o_data o) = Some (map f stations)).
    { intros j name f N H. destruct (COL j name N) as (cells & LK & FC). rewrite LK. f_equal. rewrite <- (MS _ f). clear - FC H. induction FC as [|pr c prs cells (ws & s & W & NS & V) FC IH]; [reflexivity|]. cbn [map]. f_equal; [exact (H pr ws s c W NS V)|exact IH]. }
    split; [apply (FX 2%nat); [reflexivity|]|].
    { intros pr ws s c (date & tod & wn & wl & wu & fs & -> & CL & IN & IL & IU & FS) NS V. injection NS as <-. eapply value_int; [| | |exact V|exact IN]; [lia|cbn; tauto|cbn; intuition discriminate]. }
    split; [apply (FX 3%nat); [reflexivity|]|].
    { intros pr ws s c (date & tod & wn & wl & wu & fs & -> & CL & IN & IL & IU & FS) NS V. injection NS as <-. eapply value_text; [| |exact V]; [lia|cbn; tauto]. }
    split; [apply (FX 4%nat); [reflexivity|]|].
    { intros pr ws s c (date & tod & wn & wl & wu & fs & -> & CL & IN & IL & IU & FS) NS V. injection NS as <-. eapply value_int; [| | |exact V|exact IL]; [lia|cbn; tauto|cbn; intuition discriminate]. }
    split; [apply (FX 5%nat); [reflexivity|]|].
    { intros pr ws s c (date & tod & wn & wl & wu & fs & -> & CL & IN & IL & IU & FS) NS V. injection NS as <-. eapply value_int; [| | |exact V|exact IU]; [lia|cbn; tauto|cbn; intuition discriminate]. }
    intros j name N. destruct (COL (6 + j)%nat name) as (cells & LK & FC); [exact N|]. exists cells. split; [exact LK|]. eapply F2_impl; [|exact FC].
    intros pr c (ws & s & (date & tod & wn & wl & wu & fs & -> & CL & IN & IL & IU & FS) & NS & V). cbn [nth_error plus] in NS. destruct (F2_nth_r _ _ _ _ _ FS NS) as (x & NX & SX). exists x. split; [exact NX|].
    destruct (value_num [2; 4; 5]%nat [3%nat] pf2 (longest q) (6 + j)%nat s c ltac:(lia) ltac:(cbn; intuition lia) ltac:(cbn; intuition lia) V) as (v & EV & ->). destruct (reads_shows pf2 2 x s RD SX) as (v' & EV' & R). rewrite EV in EV'. injection EV' as <-. exact R.
Qed.
End ReadSupermag.

Section ReadVort.
Context (pf : str -> res num) (secs : num -> res Z) (show : num -> str) (make : num -> Z -> Z -> res boundary) (vconv : Z -> num -> num -> num -> num * num * num).
Context (pf2 : str -> res num) (toQ : num -> res Q).
Definition vort_names : list str := map s2l ["DATE"; "TIME"; "OCB_LAT"; "OCB_MLT"; "NORM_VORT"].
Theorem C126_vort_read_back_partial size hs bs liness hemisphere given max_sdiff mn mx ks h b U T head lines mxl size2 :
  vort_input pf secs show make false size hs bs liness hemisphere given max_sdiff ks h b U T -> ~ apart b T max_sdiff mn mx ks ->
  vort2ascii pf secs show make vconv true size (hs ++ concat liness) true hemisphere given max_sdiff false mn mx ks = Ok (Some (head :: lines)) ->
  reads pf2 -> 0 < size2 <= 2000000000 -> (2 <= length lines)%nat ->
  exists o l rows lats mlts vorts, load_ascii pf2 toQ (mkReq 1 None None [0; 1] (Some (s2l "%Y-%m-%d %H:%M:%S")) [] [] mxl []) true size2 (head :: lines) = Ok o /\
    paired b T max_sdiff mn mx ks l /\
    Forall2 (fun p r => let '(t, nlat, nmlt, nv) := r in exists m lat mlt v, nth_error U (Z.to_nat (fst p)) = Some m /\ vinstant secs (fst m) t /\
       has_value pf "CENTRE_MLAT" (snd m) lat /\ has_value pf "MLT" (snd m) mlt /\ has_value pf "VORTICITY" (snd m) v /\ vconv (snd p) lat mlt v = (nlat, nmlt, nv)) l rows /\
    map fst (o_data o) = vort_names ++ [s2l "datetime"] /\
    lookup (s2l "datetime") (o_data o) = Some (map (fun r => let '(t, _, _, _) := r in CT t) rows) /\
    lookup (s2l "OCB_LAT") (o_data o) = Some lats /\ Forall2 (fun r c => let '(_, x, _, _) := r in rounded 2 x c) rows lats /\
    lookup (s2l "OCB_MLT") (o_data o) = Some mlts /\ Forall2 (fun r c => let '(_, _, x, _) := r in rounded 6 x c) rows mlts /\
    lookup (s2l "NORM_VORT") (o_data o) = Some vorts /\ Forall2 (fun r c => let '(_, _, _, x) := r in rounded 6 x c) rows vorts.
Proof.
  intros I ND E RD SZ L2.
  assert (NU : U <> []). { intros NU. rewrite (C121_other_hemisphere pf secs show make vconv _ _ _ _ _ _ _ _ mn mx _ _ _ _ _ I NU) in E. discriminate. }
  destruct (C121_vort_lines_partial pf secs show make vconv _ _ _ _ _ _ _ _ mn mx _ _ _ _ _ I NU ND) as (keys & head' & l & lines' & E' & CC & HW & P & FL). rewrite E in E'. injection E' as <- <-.
  assert (KN : keys = []). { destruct keys as [|k keys]; [reflexivity|]. destruct (CC k) as [X _]. destruct (X (or_introl eq_refl)) as [Y _]. discriminate Y. } subst keys.
  assert (EH : exists bd, head = hash :: bd).
  { clear - E. unfold vort2ascii in E.
    repeat (match type of E with context [if ?x then _ else _] => destruct x | context [bind ?x _] => destruct x; cbn [bind] in E | context [let '(_, _) := ?x in _] => destruct x | context [match ?x with Some _ => _ | None => _ end] => destruct x; cbv beta iota zeta in E | context [match ?x with [] => _ | _ :: _ => _ end] => destruct x; cbv beta iota zeta in E end; try discriminate E).
    all: injection E as <- <-; eexists; reflexivity. }
  pose (W := fun (r : Z * num * num * num) (ws : list str) => let '(t, nlat, nmlt, nv) := r in exists date tod w1 w2 w3, ws = [date; tod; w1; w2; w3] /\ clock t date tod /\ shows 2 nlat w1 /\ shows 6 nmlt w2 /\ shows 6 nv w3).
  assert (ST : exists rows, Forall2 (fun p r => let '(t, nlat, nmlt, nv) := r in exists m lat mlt v, nth_error U (Z.to_nat (fst p)) = Some m /\ vinstant secs (fst m) t /\
       has_value pf "CENTRE_MLAT" (snd m) lat /\ has_value pf "MLT" (snd m) mlt /\ has_value pf "VORTICITY" (snd m) v /\ vconv (snd p) lat mlt v = (nlat, nmlt, nv)) l rows /\
     Forall2 (fun r line => exists ws, spaced ws line /\ W r ws) rows lines).
  { clear - FL. induction FL as [|p line l lines (m & ws & NM & SP & (t & la & lt & v & date & tod & extra & w1 & w2 & w3 & VI & H1 & H2 & H3 & -> & CL & FE & SH)) FL (rows & A & B)]; [exists []; split; constructor|].
    destruct (vconv (snd p) la lt v) as [[nlat nmlt] nv] eqn:EC. inversion FE; subst. exists ((t, nlat, nmlt, nv) :: rows). split; constructor; try assumption; [exists m, la, lt, v; repeat (split; [assumption|]); exact EC|].
    eexists. split; [exact SP|]. exists date, tod, w1, w2, w3. destruct SH as (S1 & S2 & S3). repeat (split; [first [reflexivity|assumption]|]). exact S3. }
  destruct ST as (rows & SA & SB). set (q := back [] [] mxl).
  assert (GR : good_request q [] [] [0; 1]%nat [ymd; hms] vort_names).
  { split; [|split; [apply sound_two; reflexivity|split; [|cbn; lia]]].
    - constructor; try reflexivity; [right; split; [reflexivity|discriminate]|split; reflexivity].
    - unfold vort_names. repeat (constructor; [cbn; intuition discriminate|]). constructor. }
  assert (NL : names_line vort_names head).
  { apply named_line; [reflexivity|exact EH|intros d; exact HW|discriminate]. }
  destruct (read_back pf2 toQ [] [] mxl _ GR ltac:(cbn; intuition discriminate) size2 head lines rows (fun r => let '(t, _, _, _) := r in t) W SZ NL) as (o & EO & FST & LT & COL).
  - rewrite (F2_length _ _ _ SB). exact L2.
  - exact SB.
  - intros [[[t x] y] z] ws J (date & tod & w1 & w2 & w3 & -> & CL & S1 & S2 & S3). destruct (plain_clock _ _ _ CL) as (P1 & P2 & _). split; [|split; [reflexivity|split; [exists date, tod; eexists; split; [reflexivity|exact CL]|]]].
    + do 2 (constructor; [assumption|]). repeat (constructor; [eapply plain_shows; eassumption|]). constructor.
    + intros j s J2 N. assert (K : exists n x', shows n x' s).
      { destruct j as [|[|[|[|[|j]]]]]; try lia; cbn [nth_error] in N; try (injection N as <-; eauto). destruct j; discriminate N. }
      destruct K as (n & x' & K). destruct (reads_shows pf2 n x' s RD K) as (v & EV & _). exists (CF v). apply num_value; [exact J2|intros []|intros []|exact EV].
  - assert (CX : forall j n name (f : Z * num * num * num -> num), (2 <= j)%nat -> nth_error vort_names j = Some name -> (forall r ws s, W r ws -> nth_error ws j = Some s -> shows n (f r) s) ->
       exists cells, lookup name (o_data o) = Some cells /\ Forall2 (fun r c => rounded n (f r) c) rows cells).
    { intros j n name f J2 N H. destruct (COL j name N) as (cells & LK & FC). exists cells. split; [exact LK|]. eapply F2_impl; [|exact FC]. intros r c (ws & s & WW & NS & V).
      destruct (value_num [] [] pf2 (longest q) j s c J2 (fun x => x) (fun x => x) V) as (v & EV & ->). destruct (reads_shows pf2 n (f r) s RD (H r ws s WW NS)) as (v' & EV' & R). rewrite EV in EV'. injection EV' as <-. exact R. }
    destruct (CX 2%nat 2%nat (s2l "OCB_LAT") (fun r => let '(_, x, _, _) := r in x) ltac:(lia) eq_refl) as (c1 & L1 & F1).
    { intros [[[t x] y] z] ws s (date & tod & w1 & w2 & w3 & -> & CL & S1 & S2 & S3) NS. injection NS as <-. exact S1. }
    destruct (CX 3%nat 6%nat (s2l "OCB_MLT") (fun r => let '(_, _, x, _) := r in x) ltac:(lia) eq_refl) as (c2 & L2' & F2).
    { intros [[[t x] y] z] ws s (date & tod & w1 & w2 & w3 & -> & CL & S1 & S2 & S3) NS. injection NS as <-. exact S2. }
    destruct (CX 4%nat 6%nat (s2l "NORM_VORT") (fun r => let '(_, _, _, x) := r in x) ltac:(lia) eq_refl) as (c3 & L3 & F3).
    { intros [[[t x] y] z] ws s (date & tod & w1 & w2 & w3 & -> & CL & S1 & S2 & S3) NS. injection NS as <-. exact S3. }
    exists o, l, rows, c1, c2, c3. split; [exact EO|]. split; [exact P|]. split; [exact SA|]. split; [exact FST|]. split; [rewrite LT; f_equal; apply map_ext; intros [[[t x] y] z]; reflexivity|].
    split; [exact L1|]. split; [eapply F2_impl; [|exact F1]; intros [[[t x] y] z] c R; exact R|]. split; [exact L2'|]. split; [eapply F2_impl; [|exact F2]; intros [[[t x] y] z] c R; exact R|].
    split; [exact L3|]. eapply F2_impl; [|exact F3]. intros [[[t x] y] z] c R; exact R.
Qed.
(** A file with one line cannot be read back with its times (C109). *)
Theorem C126_one_line_refuted size hs bs liness hemisphere given max_sdiff mn mx ks h b U T head line mxl size2 :
  vort_input pf secs show make false size hs bs liness hemisphere given max_sdiff ks h b U T -> ~ apart b T max_sdiff mn mx ks ->
  vort2ascii pf secs show make vconv true size (hs ++ concat liness) true hemisphere given max_sdiff false mn mx ks = Ok (Some [head; line]) ->
  0 < size2 <= 2000000000 ->
  exists e, load_ascii pf2 toQ (mkReq 1 None None [0; 1] (Some (s2l "%Y-%m-%d %H:%M:%S")) [] [] mxl []) true size2 [head; line] = Err e.
Proof.
  intros I ND E SZ.
  assert (NU : U <> []). { intros NU. rewrite (C121_other_hemisphere pf secs show make vconv _ _ _ _ _ _ _ _ mn mx _ _ _ _ _ I NU) in E. discriminate. }
  destruct (C121_vort_lines_partial pf secs show make vconv _ _ _ _ _ _ _ _ mn mx _ _ _ _ _ I NU ND) as (keys & head' & l & lines' & E' & CC & HW & P & FL). rewrite E in E'. injection E' as <- <-.
  assert (KN : keys = []). { destruct keys as [|k keys]; [reflexivity|]. destruct (CC k) as [X _]. destruct (X (or_introl eq_refl)) as [Y _]. discriminate Y. } subst keys.
  assert (EH : exists bd, head = hash :: bd).
  { clear - E. unfold vort2ascii in E.
    repeat (match type of E with context [if ?x then _ else _] => destruct x | context [bind ?x _] => destruct x; cbn [bind] in E | context [let '(_, _) := ?x in _] => destruct x | context [match ?x with Some _ => _ | None => _ end] => destruct x; cbv beta iota zeta in E | context [match ?x with [] => _ | _ :: _ => _ end] => destruct x; cbv beta iota zeta in E end; try discriminate E).
    all: injection E as <- _; eexists; reflexivity. }
  inversion FL as [|p li l' ls (m & ws & NM & SP & (t & la & lt & v & date & tod & extra & w1 & w2 & w3 & VI & H1 & H2 & H3 & -> & CL & FE & SH)) FL' E1 E2]. subst. inversion FE; subst.
  destruct (vconv (snd p) la lt v) as [[nlat nmlt] nv] eqn:EC. destruct SH as (S1 & S2 & S3). destruct (plain_clock _ _ _ CL) as (P1 & P2 & _).
  assert (GR : good_request (back [] [] mxl) [] [] [0; 1]%nat [ymd; hms] vort_names).
  { split; [|split; [apply sound_two; reflexivity|split; [|cbn; lia]]].
    - constructor; try reflexivity; [right; split; [reflexivity|discriminate]|split; reflexivity].
    - unfold vort_names. repeat (constructor; [cbn; intuition discriminate|]). constructor. }
  refine (C109_single_row_times_refuted pf2 toQ _ [] [] [0; 1]%nat [ymd; hms] vort_names size2 [head; line] [date; tod; w1; w2; w3] GR SZ _ _ _ _); [| |reflexivity|discriminate].
  - left. split; [reflexivity|]. exists 0%nat, head. split; [reflexivity|]. split; [reflexivity|]. apply named_line; [reflexivity|exact EH|intros d; exact HW|discriminate].
  - apply rows_lines. constructor; [|constructor]. split; [discriminate|]. split; [|exact SP]. do 2 (constructor; [assumption|]). constructor; [exact (plain_shows _ _ _ S1)|]. constructor; [exact (plain_shows _ _ _ S2)|]. constructor; [exact (plain_shows _ _ _ S3)|constructor].
Qed.
End ReadVort.

(** ** Reading is possible *)
Definition read_unsigned (s : str) : res Q :=
  let w := upto "." s in let f := skipn (S (length w)) s in
  if forallb isdigit w && forallb isdigit f && negb (match w with [] => true | _ => false end) && negb (match f with [] => true | _ => false end)
  then Ok (inject_Z (dval w * 10 ^ zlen f + dval f) / inject_Z (10 ^ zlen f))%Q else Err ValueError.
Definition read_num (s : str) : res num :=
  if str_eqb s "nan" then Ok NaN else if str_eqb s "inf" then Ok PInf else if str_eqb s "-inf" then Ok NInf
  else match s with
       | c :: t => if Ascii.eqb c "-" then (q <- read_unsigned t ;; Ok (Fin (- q))) else (q <- read_unsigned s ;; Ok (Fin q))
       | [] => Err ValueError
       end.
Lemma read_decimal n z s : decimal n z s -> exists q, read_unsigned s = Ok q /\ (q * inject_Z (10 ^ Z.of_nat n) == inject_Z z)%Q /\ exists c t, s = c :: t /\ isdigit c = true.
Proof.
  intros (w & f & a & b & -> & A & B & L & ->). apply written_spec in A. apply written_spec in B. destruct A as (A0 & A1 & A2 & A3), B as (B0 & B1 & B2 & B3). unfold read_unsigned.
  rewrite (upto_digits w ("."%char :: f) A2) by (right; eexists; reflexivity). replace (skipn (S (length w)) (w ++ "."%char :: f)) with f.
  2:{ replace (S (length w)) with (length (w ++ ["."%char])) by (rewrite app_length; cbn; lia). change (w ++ "."%char :: f) with (w ++ ["."%char] ++ f). rewrite app_assoc, skipn_app, skipn_all, Nat.sub_diag. reflexivity. }
  cbv zeta. rewrite A2, B2. destruct w as [|c w]; [congruence|]. destruct f as [|d f]; [congruence|]. cbn [andb negb]. eexists. split; [reflexivity|]. split.
  - rewrite A3, B3. unfold zlen. rewrite L. assert (P : (0 < inject_Z (10 ^ Z.of_nat n))%Q). { change 0%Q with (inject_Z 0). rewrite <- Zlt_Qlt. apply Z.pow_pos_nonneg; lia. }
    unfold Qdiv. rewrite <- Qmult_assoc, (Qmult_comm (/ _)), Qmult_inv_r by lra. apply Qmult_1_r.
  - exists c. eexists. split; [reflexivity|]. cbn [forallb] in A2. apply andb_true_iff in A2. apply A2.
Qed.
Theorem C126_reads : reads read_num.
Proof.
  split; [|repeat split; reflexivity]. intros n z s [D|(t & -> & D)]; destruct (read_decimal _ _ _ D) as (q & E & Q & c & t' & EC & DC).
  - exists q. split; [|exact Q]. unfold read_num. rewrite EC in *. assert (N : forall (k : string) x r, s2l k = x :: r -> isdigit x = false -> str_eqb (c :: t') (s2l k) = false).
    { intros k x r EK NX. rewrite <- not_true_iff_false, str_eqb_spec, EK. intros X. injection X as -> _. congruence. }
    rewrite (N "nan" _ _ eq_refl eq_refl), (N "inf" _ _ eq_refl eq_refl), (N "-inf" _ _ eq_refl eq_refl). rewrite (isdigit_neq c "-" DC eq_refl). rewrite E. reflexivity.
  - exists (- q)%Q. split; [|rewrite Qopp_mult_distr_l_reverse || idtac; setoid_replace (- q * inject_Z (10 ^ Z.of_nat n))%Q with (- (q * inject_Z (10 ^ Z.of_nat n)))%Q by ring; rewrite Q, <- inject_Z_opp; f_equiv; lia].
    unfold read_num. assert (N : str_eqb ("-"%char :: t) (s2l "-inf") = false). { rewrite <- not_true_iff_false, str_eqb_spec, EC. intros X. injection X as -> _. discriminate DC. }
    rewrite N. change (str_eqb ("-"%char :: t) (s2l "nan")) with false. change (str_eqb ("-"%char :: t) (s2l "inf")) with false. cbv iota. change (Ascii.eqb "-" "-") with true. cbv iota. rewrite E. reflexivity.
Qed.
(** The file of C118_case, whose hypotheses are met (C118_hypotheses), read back. *)
Example C126_case : exists lines o, supermag2ascii d_num d_fill (fun _ _ _ => Err ValueError) d_conv true 300 (demo_head ++ concat [d_l1; d_l2]) true (Fin 1) (Some (ex_b (-1), Fin 1)) 60 None None [] = Ok (Some lines) /\
  load_ascii read_num (fun _ => Err ValueError) (mkReq 1 None None [0; 1] (Some (s2l "%Y-%m-%d %H:%M:%S")) [2; 4; 5] [3] 50 []) true 300 lines = Ok o /\
  lookup (s2l "datetime") (o_data o) = Some (map CT [5000000; 230000000; 230000000]) /\ lookup (s2l "STID") (o_data o) = Some (map (fun s => CS (s2l s)) ["AAA"; "DDD"; "AAA"]) /\
  lookup (s2l "NST") (o_data o) = Some (map CZ [1; 2; 2]) /\ lookup (s2l "SML") (o_data o) = Some (map CZ [-195; 999999; 999999]) /\
  exists a b c, lookup (s2l "BE") (o_data o) = Some (map (fun x => CF (Fin x)) [a; b; c]) /\ (a == 212 # 100)%Q /\ (b == 212 # 100)%Q.
Proof.
  eexists. eexists. split; [vm_compute; reflexivity|]. split; [vm_compute; reflexivity|]. split; [vm_compute; reflexivity|]. split; [vm_compute; reflexivity|]. split; [vm_compute; reflexivity|]. split; [vm_compute; reflexivity|].
  eexists. eexists. eexists. split; [vm_compute; reflexivity|]. split; reflexivity.
Qed.
(** A name with a hash makes the file unreadable. *)
Example C126_hash_case : exists e,
  load_ascii read_num (fun _ => Err ValueError) (mkReq 1 None None [0; 1] (Some (s2l "%Y-%m-%d %H:%M:%S")) [2; 4; 5] [3] 50 []) true 300
    [smag_header; smag_out_line 1 (mkRow 0 (s2l "A#A") 1 2 (Fin 1) (Fin 65) (Fin 3) (Fin 4) (Fin 5) (Fin 6)) (d_conv 0 (mkRow 0 (s2l "A#A") 1 2 (Fin 1) (Fin 65) (Fin 3) (Fin 4) (Fin 5) (Fin 6)));
     smag_out_line 1 (mkRow 60000000 (s2l "AAA") 1 2 (Fin 1) (Fin 65) (Fin 3) (Fin 4) (Fin 5) (Fin 6)) (d_conv 0 (mkRow 0 (s2l "AAA") 1 2 (Fin 1) (Fin 65) (Fin 3) (Fin 4) (Fin 5) (Fin 6)))] = Err e.
Proof. eexists. vm_compute. reflexivity. Qed.

Print Assumptions C126_supermag_read_back_partial.
Print Assumptions C126_vort_read_back_partial.
Print Assumptions C126_one_line_refuted.
Print Assumptions C126_reads.
