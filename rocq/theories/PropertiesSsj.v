(** C163-C165: the text of boundary files, read by OCBoundary.load and written by
    format_ssj_boundary_files. *)
From Coq Require Lqa.
From Coq Require Import String Ascii Reals Rgeom Qreals ZArith QArith List Bool Lia Lra.
From Verif Require Import PyBase PyString TimeModel TimeSpec TimeProofs CycleModel RangeModel CoordModel CoordSpec CoordProofs PropertiesCoord PropertiesTime
  FilesModel FilesSpec FilesProofs TextSpec TextProofs GeneralSpec GeneralProofs2 OutputModel OutputSpec OutputProofs PropertiesOutput3 DmspModel PropertiesDmsp2
  GeneralModel PropertiesGeneral LoadModel LoadSpec LoadProofs PropertiesLoad SsjModel SsjSpec SsjProofs SsjProofs2.
Import ListNotations.
Open Scope string_scope.
Open Scope list_scope.
Open Scope Z_scope.

(** ** C163 *)
Theorem C163_table_read :
  forall F K pf cols fmt stime etime inst (rf : given (corr F)) (kw : given K) noargs head lines words n,
    NoDup cols -> year_file cols \/ date_file cols -> data_lines words lines ->
    (length cols <= n)%nat -> Forall (fun ws => length ws = n) words ->
    exists rows, is_table cols rows /\ Forall2 (row_denotes pf cols) words rows /\
      load_text pf (length head) cols fmt stime etime inst rf kw noargs (head ++ lines) = load cols fmt stime etime inst rf kw noargs rows.
Proof.
  intros F K pf cols fmt stime etime inst rf kw noargs head lines words n N TC D L W. destruct (time_flag_some cols TC) as [flag TF].
  exists (map (read_row pf (map (type_of flag) cols)) words). split; [|split].
  - split; [exact N|]. apply Forall_forall. intros row I. apply in_map_iff in I. destruct I as (ws & <- & I). rewrite Forall_forall in W. apply W in I.
    rewrite read_row_length; rewrite map_length; [reflexivity|lia].
  - clear D. induction W as [|ws words W0 W IH]; constructor; [|exact IH]. apply row_read; [exact TF|lia].
  - unfold load_text. rewrite TF. rewrite (read_table_spec pf flag cols head lines words n N D L W). reflexivity.
Qed.
(** Files whose lines differ in length or are too short are refused. *)
Theorem C163_ragged_refused :
  forall F K pf cols fmt stime etime inst (rf : given (corr F)) (kw : given K) noargs head lines words,
    year_file cols \/ date_file cols -> data_lines words lines ->
    (exists a b, In a words /\ In b words /\ length a <> length b) \/ (exists a, In a words /\ (length a < length cols)%nat) ->
    load_text pf (length head) cols fmt stime etime inst rf kw noargs (head ++ lines) = Err ValueError.
Proof.
  intros F K pf cols fmt stime etime inst rf kw noargs head lines words TC D H. destruct (time_flag_some cols TC) as [flag TF].
  unfold load_text. rewrite TF. unfold read_table. destruct (negb (distinct cols)); [reflexivity|]. rewrite skip_head, (rows_read _ _ D).
  destruct words as [|r0 rs]; [destruct H as [(a & _ & [] & _)|(a & [] & _)]|]. cbv zeta iota.
  destruct (forallb (fun r => (length r =? length r0)%nat) (r0 :: rs)) eqn:E; [|reflexivity]. rewrite forallb_forall in E.
  assert (E' : forall r, In r (r0 :: rs) -> length r = length r0) by (intros r I; apply Nat.eqb_eq, E, I).
  destruct H as [(a & b & A & B & X)|(a & A & X)]; [exfalso; apply X; rewrite (E' _ A), (E' _ B); reflexivity|].
  rewrite (E' _ A) in X. rewrite (proj2 (Nat.leb_gt _ _) X). reflexivity.
Qed.
(** A file of another kind: without time columns nothing is read. *)
Theorem C163_no_times :
  forall F K pf hl cols fmt stime etime inst (rf : given (corr F)) (kw : given K) noargs lines,
    ~ year_file cols -> ~ date_file cols -> load_text pf hl cols fmt stime etime inst rf kw noargs lines = Ok None.
Proof.
  intros F K pf hl cols fmt stime etime inst rf kw noargs lines Y D. unfold load_text. destruct (time_flag_spec cols) as (_ & _ & F3). rewrite (proj2 F3 (conj Y D)). reflexivity.
Qed.
(** [float] on texts with and without decimal point. *)
Definition read_float (s : str) : res num := match py_int s with Ok z => Ok (Fin (inject_Z z)) | Err _ => read_num s end.
Definition image_lines : list str :=
  [s2l "2000 11055184.00  8 310.98 4.65 11.05 1.32 1.00 2.30 7.00"; []; s2l "# a comment"; s2l "2000 11055307.50 x 250.11 nan 11.84 ? 0.98 2.10 7.00 # late"].
Example C163_case : exists w1 w2, data_lines [w1; w2] image_lines /\ length w1 = 10%nat /\ length w2 = 10%nat /\
  match read_table read_float true 0 image_cols image_lines with
  | Ok [[y; s; n; _; c; _; a; _; _]; [y2; s2; n2; _; c2; _; a2; _; _]] =>
      y = CInt 2000 /\ s = CFlt (Fin (1105518400 # 100)) /\ n = CInt 8 /\ c = CFlt (Fin (465 # 100)) /\ a = CFlt (Fin (132 # 100)) /\
      y2 = CInt 2000 /\ s2 = CFlt (Fin (1105530750 # 100)) /\ n2 = CInt (-1) /\ c2 = CFlt NaN /\ a2 = CFlt NaN
  | _ => False
  end.
Proof.
  exists (map s2l ["2000"; "11055184.00"; "8"; "310.98"; "4.65"; "11.05"; "1.32"; "1.00"; "2.30"; "7.00"]),
    (map s2l ["2000"; "11055307.50"; "x"; "250.11"; "nan"; "11.84"; "?"; "0.98"; "2.10"; "7.00"]).
  split; [exact (lines_read image_lines)|]. split; [reflexivity|]. split; [reflexivity|]. vm_compute. repeat split.
Qed.
Print Assumptions C163_table_read.
Print Assumptions C163_ragged_refused.
Print Assumptions C163_no_times.

(** ** C164 *)
Theorem C164_passes_written_partial :
  (* missing: input files with one pass, which count as bad (C164_single_pass_refuted) *)
  forall pf aacgm files ps bad, all_files pf files ps bad -> files <> [] -> all_dated ps ->
    exists es, format_ssj pf aacgm files = Ok (es, bad) /\
      forall h b, exists kept lines, kept_of (fun q => s_hemi (snd q) = h) ps kept /\
        file_of h b es = (s2l "#sc date time r x y fom x_1 y_1 x_2 y_2" ++ [newl]) :: lines /\
        Forall2 (fun q l => exists ws, spaced ws l /\ pass_words aacgm b q ws) kept lines.
Proof.
  intros pf aacgm files ps bad A N D. destruct (format_ssj_spec pf aacgm files ps bad A N D) as (es & E & EV). exists es. split; [exact E|]. intros h b.
  destruct (file_lines aacgm h b ps es EV) as (kept & K & lines & L & F). exists kept, lines. split; [exact K|]. split; [exact L|exact F].
Qed.
Theorem C164_no_files : forall pf aacgm, format_ssj pf aacgm [] = Err ValueError.
Proof. reflexivity. Qed.
(** The pass of a file with one is not written, and the file is reported as bad. *)
Theorem C164_single_pass_refuted :
  forall pf aacgm name lines names row, csv_text pf names [row] lines -> (exists sat day, ssj_name name sat day) ->
    format_ssj pf aacgm [(name, lines)] = Ok ([], [name]).
Proof.
  intros pf aacgm name lines names row T S.
  destruct (format_ssj_spec pf aacgm [(name, lines)] [] [name]) as (es & E & EV).
  - apply (af_bad pf (name, lines) [] [] []); [|constructor]. split; [exact S|]. exists names, [row], (length row). split; [exact T|]. split; [constructor; [reflexivity|constructor]|]. left. cbn. lia.
  - discriminate.
  - intros ? ? ? ? [].
  - inversion EV; subst. exact E.
Qed.
(** Two passes of DMSP F16 on 31 December 2010. *)
Definition f16_name : str := s2l "/data/dmsp-f16_ssj_precipitating-electrons-ions_20101231_v1.1.2_boundaries.csv".
Definition f16_names : list str := map s2l
  ["hemisphere"; "UTSec EQ1"; "UTSec PO1"; "UTSec PO2"; "UTSec EQ2"; "SC_GEOCENTRIC_LAT EQ1"; "SC_GEOCENTRIC_LAT PO1"; "SC_GEOCENTRIC_LAT PO2"; "SC_GEOCENTRIC_LAT EQ2";
   "SC_GEOCENTRIC_LON EQ1"; "SC_GEOCENTRIC_LON PO1"; "SC_GEOCENTRIC_LON PO2"; "SC_GEOCENTRIC_LON EQ2"; "FOM"].
Definition f16_1 : list str := map s2l ["1.0"; "1203.0"; "1302.0"; "1751.0"; "1838.0"; "60.1"; "65.5"; "70.2"; "64.3"; "20.0"; "10.0"; "250.0"; "240.0"; "4.5"].
Definition f16_2 : list str := map s2l ["-1.0"; "4203.0"; "4302.0"; "4751.0"; "4838.0"; "-60.1"; "-65.5"; "-70.2"; "-64.3"; "20.0"; "10.0"; "250.0"; "240.0"; "2.5"].
Definition f16_lines : list str := [s2l "# DMSP boundaries" ++ [newl]; commas f16_names ++ [newl]; commas f16_1 ++ [newl]; commas f16_2 ++ [newl]].
Definition val1 (ws : list str) (i : nat) : num := match nth_error ws i with Some w => match read_num w with Ok v => v | Err _ => NaN end | None => NaN end.
Definition qval (ws : list str) (i : nat) : Q := match val1 ws i with Fin q => q | _ => 0%Q end.
Definition f16_pass (h : Z) (ws : list str) : ssj_pass :=
  mkSP h (val1 ws 13) (fun b => match b with EQ => mkX (qval ws 1) (val1 ws 5) (val1 ws 9) | PO => mkX (qval ws 2) (val1 ws 6) (val1 ws 10) end)
       (fun b => match b with EQ => mkX (qval ws 4) (val1 ws 8) (val1 ws 12) | PO => mkX (qval ws 3) (val1 ws 7) (val1 ws 11) end).
Definition f16_day : Z := 63429350400000000.
Lemma cleanb f : forallb (fun c => negb (Ascii.eqb c ",") && negb (Ascii.eqb c "#") && negb (Ascii.eqb c newl) && negb (Ascii.eqb c carriage)) f = true -> clean f.
Proof.
  intros H. rewrite forallb_forall in H. assert (K : forall c, In c f -> c <> ","%char /\ c <> "#"%char /\ c <> newl /\ c <> carriage).
  { intros c I. apply H in I. repeat rewrite andb_true_iff in I. repeat rewrite negb_true_iff in I. destruct I as (((A & B) & C) & D). apply Ascii.eqb_neq in A, B, C, D. auto. }
  unfold clean. repeat split; intros I; apply K in I; tauto.
Qed.
Lemma number_fieldb pf f v : pf f = Ok v -> f <> [] -> forallb (fun c => negb (isspace c) && negb (Ascii.eqb c ",") && negb (Ascii.eqb c "#")) f = true -> number_field pf f v.
Proof.
  intros P N H. rewrite forallb_forall in H. assert (K : forall c, In c f -> isspace c = false /\ c <> ","%char /\ c <> "#"%char).
  { intros c I. apply H in I. repeat rewrite andb_true_iff in I. repeat rewrite negb_true_iff in I. destruct I as ((A & B) & C). apply Ascii.eqb_neq in B, C. auto. }
  split; [unfold clean; repeat split; intros I; apply K in I; [tauto|tauto|destruct I as (I & _); discriminate I|destruct I as (I & _); discriminate I]|].
  exists [], f, []. rewrite app_nil_r. split; [reflexivity|]. split; [constructor|]. split; [split; [exact N|apply Forall_forall; intros c I; apply K in I; tauto]|]. split; [constructor|exact P].
Qed.
Lemma f16_row (h : Z) ws : (h = 1 /\ ws = f16_1) \/ (h = -1 /\ ws = f16_2) -> let row := map (fun i => val1 ws i) (seq 0 14) in
  Forall2 (number_field read_num) ws row /\ row_of f16_names row (f16_pass h ws).
Proof.
  intros H row. split.
  - destruct H as [[-> ->]|[-> ->]]; repeat (constructor; [apply number_fieldb; [vm_compute; reflexivity|discriminate|vm_compute; reflexivity]|]); constructor.
  - assert (IC : forall i name, nth_error f16_names i = Some (s2l name) -> forall v, nth_error row i = Some v -> in_column f16_names row name v) by (intros i name A v B; exists i; auto).
    split; [destruct H as [[-> _]|[-> _]]; [left|right]; reflexivity|]. split; [|split].
    + destruct H as [[-> ->]|[-> ->]]; eexists; (split; [apply (IC 0%nat); reflexivity|reflexivity]).
    + apply (IC 13%nat); reflexivity.
    + destruct H as [[-> ->]|[-> ->]]; intros [|]; cbv zeta.
      * split; [apply (IC 2%nat); vm_compute; reflexivity|]; split; [apply (IC 3%nat); vm_compute; reflexivity|]; split; [apply (IC 6%nat); vm_compute; reflexivity|]; split; [apply (IC 7%nat); vm_compute; reflexivity|]; split; [apply (IC 10%nat); vm_compute; reflexivity|]; apply (IC 11%nat); vm_compute; reflexivity.
      * split; [apply (IC 1%nat); vm_compute; reflexivity|]; split; [apply (IC 4%nat); vm_compute; reflexivity|]; split; [apply (IC 5%nat); vm_compute; reflexivity|]; split; [apply (IC 8%nat); vm_compute; reflexivity|]; split; [apply (IC 9%nat); vm_compute; reflexivity|]; apply (IC 12%nat); vm_compute; reflexivity.
      * split; [apply (IC 2%nat); vm_compute; reflexivity|]; split; [apply (IC 3%nat); vm_compute; reflexivity|]; split; [apply (IC 6%nat); vm_compute; reflexivity|]; split; [apply (IC 7%nat); vm_compute; reflexivity|]; split; [apply (IC 10%nat); vm_compute; reflexivity|]; apply (IC 11%nat); vm_compute; reflexivity.
      * split; [apply (IC 1%nat); vm_compute; reflexivity|]; split; [apply (IC 4%nat); vm_compute; reflexivity|]; split; [apply (IC 5%nat); vm_compute; reflexivity|]; split; [apply (IC 8%nat); vm_compute; reflexivity|]; split; [apply (IC 9%nat); vm_compute; reflexivity|]; apply (IC 12%nat); vm_compute; reflexivity.
Qed.
Lemma f16_files : all_files read_num [(f16_name, f16_lines)] [(16, f16_day, f16_pass 1 f16_1); (16, f16_day, f16_pass (-1) f16_2)] [].
Proof.
  destruct (f16_row 1 f16_1 (or_introl (conj eq_refl eq_refl))) as [A1 B1], (f16_row (-1) f16_2 (or_intror (conj eq_refl eq_refl))) as [A2 B2].
  apply (af_good read_num (f16_name, f16_lines) (mkSF 16 f16_day [f16_pass 1 f16_1; f16_pass (-1) f16_2]) [] [] []); [|constructor].
  split.
  - exists (s2l "/data"), (s2l "16"), (s2l "ssj"), (s2l "precipitating-electrons-ions"), (s2l "20101231"), (s2l "v1.1.2"), [s2l "boundaries.csv"]. split; [reflexivity|]. split; [|split; [|split; [|split]]].
    + repeat constructor; intros I; vm_compute in I; intuition discriminate.
    + vm_compute. intuition discriminate.
    + intros (a & b & E). assert (I : In "m"%char (a ++ s2l "dmsp-f" ++ b)) by (apply in_or_app; right; apply in_or_app; left; cbn; auto).
      rewrite <- E in I. vm_compute in I. intuition discriminate.
    + left. apply (wr_snoc (s2l "1") "6" 1 6); [apply wr_one; split; [lia|reflexivity]|split; [lia|reflexivity]].
    + exists 2010, 12, 31, (ordinal 2010 12 31), (s2l "2010"), (s2l "12"), (s2l "31").
      split; [apply calendar_day_spec; cbn; lia|].
      split; [do 4 eexists; exists 2, 0, 1, 0; split; [reflexivity|]; repeat (split; [split; [lia|reflexivity]|]); reflexivity|].
      split; [do 2 eexists; exists 1, 2; split; [reflexivity|]; repeat (split; [split; [lia|reflexivity]|]); reflexivity|].
      split; [do 2 eexists; exists 3, 1; split; [reflexivity|]; repeat (split; [split; [lia|reflexivity]|]); reflexivity|]. split; reflexivity.
  - exists f16_names, [map (fun i => val1 f16_1 i) (seq 0 14); map (fun i => val1 f16_2 i) (seq 0 14)]. split; [|split; [|split; [cbn; lia|split; [cbn; lia|split]]]].
    + exists [s2l "# DMSP boundaries" ++ [newl]], [newl], [commas f16_1 ++ [newl]; commas f16_2 ++ [newl]]. split; [reflexivity|].
      split; [constructor; [eexists; reflexivity|constructor]|]. split; [discriminate|]. split; [repeat (constructor; [apply cleanb; reflexivity|]); constructor|]. split; [right; reflexivity|].
      apply (csv_line read_num f16_1 _ [newl] []); [discriminate|exact A1|right; left; reflexivity|left; reflexivity|].
      apply (csv_line read_num f16_2 _ [newl] []); [discriminate|exact A2|right; left; reflexivity|left; reflexivity|constructor].
    + unfold f16_names. repeat (constructor; [intros I; cbn [map In] in I; repeat (destruct I as [I|I]; [discriminate I|]); destruct I|]). constructor.
    + repeat constructor.
    + constructor; [exact B1|constructor; [exact B2|constructor]].
Qed.
Lemma f16_dated : all_dated [(16, f16_day, f16_pass 1 f16_1); (16, f16_day, f16_pass (-1) f16_2)].
Proof.
  intros sat day p b [E|[E|[]]]; injection E as <- <- <-; destruct b; intros t M; unfold middle in M; apply Qabs.Qabs_Qle_condition in M; destruct M as [M1 M2];
    match type of M1 with (_ <= _ - ?c)%Q => let c' := eval vm_compute in c in change c with c' in M1, M2 end;
    unfold Qle, Qminus, Qplus, Qopp, inject_Z in M1, M2; cbn [Qnum Qden] in M1, M2; unfold f16_day in *; change max_us with 315537897600000000; change (Z.pos (1 * 200)) with 200 in *; lia.
Qed.
Example C164_case : exists files ps, all_files read_num files ps [] /\ files <> [] /\ all_dated ps /\ length ps = 2%nat.
Proof. eexists. eexists. split; [exact f16_files|]. split; [discriminate|]. split; [exact f16_dated|reflexivity]. Qed.
Print Assumptions C164_passes_written_partial.
Print Assumptions C164_no_files.
Print Assumptions C164_single_pass_refuted.

(** ** C165 *)
(** The value of an attribute in the loaded record [k]. *)
Definition attr {F K} (d : LoadModel.loaded F K) (k : nat) (name : string) (v : val) : Prop :=
  exists sel, assoc name (l_attrs d) = Some sel /\ nth_error sel k = Some v.
(** A number as written with three decimals. *)
Definition near3 (x : fl) (v : val) : Prop :=
  match x with
  | Some r => exists q, v = VCell (CFlt (Fin q)) /\ (Rabs (Q2R q - r) <= 0.0005)%R
  | None => v = VCell (CFlt NaN)
  end.
Definition near3Q (x : num) (v : val) : Prop :=
  match x with Fin q => exists r, v = VCell (CFlt (Fin r)) /\ (Qabs.Qabs (q - r) <= 1 # 2000)%Q | y => v = VCell (CFlt y) end.
(** [float] on a text without decimals. *)
Definition reads_whole (pf : str -> res num) : Prop := forall z s, integer z s -> exists q, pf s = Ok (Fin q) /\ (q == inject_Z z)%Q.

Lemma attr_value {F K} cols rows idx (d : LoadModel.loaded F K) k i row name v :
  map fst (l_attrs d) = names_of cols -> (forall name sel, In (name, sel) (l_attrs d) -> column_of cols rows idx name sel) ->
  nth_error idx k = Some i -> nth_error rows i = Some row -> In name (names_of cols) -> value_of cols row name = Some v -> attr d k name v.
Proof.
  intros G I K1 K2 J V. destruct (assoc_some name (l_attrs d)) as [sel S]; [rewrite G; exact J|]. exists sel. split; [exact S|].
  pose proof (I _ _ (assoc_in _ _ _ S)) as C. clear - C K1 K2 V. revert k K1. induction C as [|j w idx' sel C1 C2 IH]; intros [|k] K1; cbn in *; try discriminate; auto.
  injection K1 as ->. destruct C1 as (r & A & B). congruence.
Qed.
Lemma reads_R pf x s : reads pf -> showsR x s -> exists v, pf s = Ok v /\ near3 x (VCell (CFlt v)).
Proof.
  intros (R1 & R2 & _). destruct x as [r|]; cbn [showsR near3]; [|intros ->; exists NaN; split; [exact R2|reflexivity]].
  intros (z & SG & A). destruct (R1 _ _ _ SG) as (q & E & EQ). exists (Fin q). split; [exact E|]. exists q. split; [reflexivity|].
  apply Qeq_eqR in EQ. rewrite Q2R_mult in EQ. change (inject_Z (10 ^ Z.of_nat 3)) with (1000 # 1)%Q in EQ. replace (Q2R (1000 # 1)) with 1000%R in EQ by (unfold Q2R; cbn [Qnum Qden]; lra).
  replace (Q2R (inject_Z z)) with (IZR z) in EQ by (unfold Q2R, inject_Z; cbn [Qnum Qden]; lra).
  assert (B : (-(1/2) <= r * 1000 - IZR z <= 1 / 2)%R) by (unfold Rabs in A; destruct (Rcase_abs (r * 1000 - IZR z)); lra). apply Rabs_le. lra.
Qed.
Lemma reads_Q pf x s : reads pf -> shows 3 x s -> exists v, pf s = Ok v /\ near3Q x (VCell (CFlt v)).
Proof.
  intros R H. destruct (reads_shows pf 3 x s R H) as (v & E & RO). exists v. split; [exact E|]. destruct x as [| |q|]; cbn [rounded near3Q] in *; try (injection RO as <-; reflexivity).
  destruct RO as (r & X & A). injection X as ->. exists r. split; [reflexivity|]. change (inject_Z (10 ^ Z.of_nat 3)) with (1000 # 1)%Q in A.
  apply Qabs.Qabs_Qle_condition in A. apply Qabs.Qabs_Qle_condition. destruct A. split; Lqa.lra.
Qed.
Lemma near_circle P Q r x y f : (Rabs (r - dist P Q / 2) <= 0.0005 -> Rabs (x - (snd P + snd Q) / 2) <= 0.0005 -> Rabs (y - - ((fst P + fst Q) / 2)) <= 0.0005 ->
  let b := loaded_pass r x y f in Rabs (dist P (centre b) - r) <= 0.00125 /\ Rabs (dist Q (centre b) - r) <= 0.00125)%R.
Proof.
  intros DR DX DY. cbv zeta. rewrite loaded_centre. set (M := ((fst P + fst Q) / 2, (snd P + snd Q) / 2)%R).
  assert (T : forall P Q S, (dist P Q <= dist P S + dist S Q)%R).
  { intros [a b] [c d] [e g]. unfold dist. cbn [fst snd]. pose proof (triangle a b c d e g) as T. unfold dist_euc, Rsqr in T.
    replace ((a - c) ^ 2 + (b - d) ^ 2)%R with ((a - c) * (a - c) + (b - d) * (b - d))%R by ring.
    replace ((a - e) ^ 2 + (b - g) ^ 2)%R with ((a - e) * (a - e) + (b - g) * (b - g))%R by ring.
    replace ((e - c) ^ 2 + (g - d) ^ 2)%R with ((e - c) * (e - c) + (g - d) * (g - d))%R by ring. exact T. }
  assert (SY : forall P Q, dist P Q = dist Q P) by (intros A B; unfold dist; f_equal; ring).
  assert (H : forall a b, (sqrt (a ^ 2 + b ^ 2) / 2 = sqrt ((a / 2) ^ 2 + (b / 2) ^ 2))%R).
  { intros a b. replace ((a / 2) ^ 2 + (b / 2) ^ 2)%R with ((a ^ 2 + b ^ 2) / (2 * 2))%R by field. rewrite sqrt_div_alt by lra. rewrite sqrt_square by lra. reflexivity. }
  assert (D1 : dist P M = (dist P Q / 2)%R) by (unfold dist, M; cbn [fst snd]; rewrite H; f_equal; field).
  assert (D2 : dist Q M = (dist P Q / 2)%R) by (unfold dist, M; cbn [fst snd]; rewrite H; f_equal; field).
  assert (CC : (dist M (- y, x) <= 0.00075)%R).
  { unfold dist, M. cbn [fst snd]. rewrite <- (sqrt_square 0.00075) by lra. apply sqrt_le_1_alt.
    assert (A : forall a c, (Rabs (a - c) <= 0.0005 -> (c - a) ^ 2 <= 0.00000025)%R).
    { intros a c HA. assert (HH : (-0.0005 <= a - c <= 0.0005)%R) by (unfold Rabs in HA; destruct (Rcase_abs (a - c)); lra).
      replace ((c - a) ^ 2)%R with ((a - c) * (a - c))%R by ring. nra. }
    pose proof (A _ _ DX). pose proof (A _ _ DY). replace (((fst P + fst Q) / 2 - - y) ^ 2)%R with ((- ((fst P + fst Q) / 2) - y) ^ 2)%R by ring. lra. }
  assert (F : forall A, dist A M = (dist P Q / 2)%R -> (Rabs (dist A (- y, x) - r) <= 0.00125)%R).
  { intros A DP. pose proof (T A (- y, x)%R M) as T1. pose proof (T A M (- y, x)%R) as T2.
    rewrite (SY (- y, x)%R M) in T2. rewrite DP in *. apply Rabs_le. unfold Rabs in DR. destruct (Rcase_abs (r - dist P Q / 2)) in DR; lra. }
  split; apply F; assumption.
Qed.
Lemma written_plain x s : showsR x s -> plain s.
Proof.
  destruct x as [r|]; cbn [showsR]; [|intros ->; intros I; vm_compute in I; intuition discriminate].
  intros (z & [D|(t & -> & D)] & _); [|apply plain_cons; [discriminate|]]; exact (plain_decimal _ _ _ D).
Qed.
Lemma F2_iff_nth {A B} (R : A -> B -> Prop) l m : Forall2 R l m <-> length l = length m /\ forall k a c, nth_error l k = Some a -> nth_error m k = Some c -> R a c.
Proof.
  split.
  - induction 1 as [|a c l m H F [L IH]]; [split; [reflexivity|]; intros [|k] a c X; discriminate X|]. split; [cbn; congruence|]. intros [|k] a' c' X Y; cbn in X, Y; [congruence|exact (IH k a' c' X Y)].
  - revert m. induction l as [|a l IH]; intros [|c m] [L H]; cbn in L; try discriminate L; constructor; [exact (H 0%nat a c eq_refl eq_refl)|]. apply IH. split; [congruence|]. intros k a' c' X Y. exact (H (S k) a' c' X Y).
Qed.
Definition dmsp_cols : list string := ["sc"; "date"; "time"; "r"; "x"; "y"; "fom"; "x_1"; "y_1"; "x_2"; "y_2"].
(** These are the columns, header lines and format of the instrument "dmsp-ssj". *)
Lemma dmsp_defaults : inst_defaults (Some "dmsp-ssj") = (1%nat, dmsp_cols, s2l "%Y-%m-%d %H:%M:%S", Fin 3, PInf).
Proof. reflexivity. Qed.
Theorem C165_loaded_back_partial :
  (* missing: hemispheres with one pass, C165_single_pass_refuted *)
  forall F K pf pf2 aacgm files ps bad h b stime etime (rf : given (corr F)) (kw : given K) noargs,
    all_files pf files ps bad -> files <> [] -> all_dated ps -> reads pf2 -> reads_whole pf2 ->
    (rf = GNone \/ exists f, rf = GOne f) -> (kw = GNone \/ exists k, kw = GOne k) ->
    exists es kept, format_ssj pf aacgm files = Ok (es, bad) /\ kept_of (fun q => s_hemi (snd q) = h) ps kept /\
    (length kept <> 1%nat ->
     exists d mids times idx,
       load_text pf2 1 dmsp_cols "%Y-%m-%d %H:%M:%S" stime etime (Some "dmsp-ssj") rf kw noargs (file_of h b es) = Ok (Some d) /\
       (* the times of the passes are the seconds of the middle times *)
       Forall2 (fun q m => middle (snd (fst q)) (snd q) b m) kept mids /\ Forall2 whole_second mids times /\
       (* those in the window are loaded *)
       LoadSpec.selected stime etime times idx /\ l_records d = Z.of_nat (length idx) /\ l_rec_ind d = -1 /\
       Forall2 (fun i t => nth_error times i = Some t) idx (l_dtime d) /\
       forall k i sat day p m, nth_error idx k = Some i -> nth_error kept i = Some (sat, day, p) -> nth_error mids i = Some m ->
         let P := place_of aacgm m (s_first p b) in let Q := place_of aacgm m (s_second p b) in
         (exists s, attr d k "sc" (VCell (CFlt (Fin s))) /\ (s == inject_Z sat)%Q) /\
         (exists v, attr d k "fom" v /\ near3Q (s_fom p) v) /\ (exists v, attr d k "r" v /\ near3 (half_apart P Q) v) /\
         (exists v, attr d k "x_1" v /\ near3 (dawnward P) v) /\ (exists v, attr d k "y_1" v /\ near3 (noonward P) v) /\
         (exists v, attr d k "x_2" v /\ near3 (dawnward Q) v) /\ (exists v, attr d k "y_2" v /\ near3 (noonward Q) v) /\
         (* both crossings lie on the loaded circle *)
         forall A B, P = Some A -> Q = Some B ->
           exists r rc pc, attr d k "r" (VCell (CFlt (Fin r))) /\ attr d k "r_cent" (VReal (Some rc)) /\ attr d k "phi_cent" (VReal (Some pc)) /\
             forall f, let c := centre (mkRec (Q2R r) rc pc f) in (Rabs (dist A c - Q2R r) <= 0.00125 /\ Rabs (dist B c - Q2R r) <= 0.00125)%R).
Proof.
  intros F K pf pf2 aacgm files ps bad h b stime etime rf kw noargs AF NE AD RD RW RF KW.
  destruct (C164_passes_written_partial pf aacgm files ps bad AF NE AD) as (es & E & HF). destruct (HF h b) as (kept & lines & KO & FL & F2). clear HF.
  exists es, kept. split; [exact E|]. split; [exact KO|]. intros N1.
  (* the words of the lines, and the middle times *)
  assert (W : exists words mids times, Forall2 (fun ws l => ws <> [] /\ Forall plain ws /\ spaced ws l) words lines /\ length mids = length kept /\ length times = length kept /\ length words = length kept /\
     forall i q, nth_error kept i = Some q -> exists ws m sec, nth_error words i = Some ws /\ nth_error mids i = Some m /\ nth_error times i = Some sec /\
       let '(sat, day, p) := q in
       exists w date tod r x y f x1 y1 x2 y2,
         ws = [w; date; tod; r; x; y; f; x1; y1; x2; y2] /\ integer sat w /\ middle day p b m /\ whole_second m sec /\ clock sec date tod /\
         let P := place_of aacgm m (s_first p b) in let Q := place_of aacgm m (s_second p b) in
         showsR (half_apart P Q) r /\ showsR (dawnward (half_way P Q)) x /\ showsR (noonward (half_way P Q)) y /\ shows 3 (s_fom p) f /\
         showsR (dawnward P) x1 /\ showsR (noonward P) y1 /\ showsR (dawnward Q) x2 /\ showsR (noonward Q) y2).
  { clear - F2. induction F2 as [|q l kept lines (ws & SP & PW) F2 (words & mids & times & A & B1 & B2 & B3 & C)].
    - exists [], [], []. split; [constructor|]. split; [reflexivity|]. split; [reflexivity|]. split; [reflexivity|]. intros [|i] q H; discriminate H.
    - destruct q as [[sat day] p]. destruct PW as (t & sec & w & date & tod & r & x & y & f & x1 & y1 & x2 & y2 & EW & I & M & WS & CL & S1 & S2 & S3 & S4 & S5 & S6 & S7 & S8).
      exists (ws :: words), (t :: mids), (sec :: times). split; [|cbn [length]; split; [congruence|]; split; [congruence|]; split; [congruence|]].
      + constructor; [|exact A]. split; [rewrite EW; discriminate|]. split; [|exact SP]. rewrite EW. destruct (plain_clock _ _ _ CL) as (P1 & P2 & _).
        repeat (constructor; [first [exact (plain_integer _ _ I)|exact P1|exact P2|exact (plain_shows _ _ _ S4)|eapply written_plain; eassumption]|]). constructor.
      + intros [|i] q H; cbn [nth_error] in *.
        * injection H as <-. exists ws, t, sec. split; [reflexivity|]. split; [reflexivity|]. split; [reflexivity|]. exists w, date, tod, r, x, y, f, x1, y1, x2, y2. repeat (split; [assumption|]). assumption.
        * exact (C i q H). }
  destruct W as (words & mids & times & WL & LM & LT & LW & WD).
  assert (ND : NoDup dmsp_cols) by (unfold dmsp_cols; repeat (constructor; [cbn; intuition discriminate|]); constructor).
  assert (DF : date_file dmsp_cols) by (split; cbn; auto). assert (NY : ~ year_file dmsp_cols) by (intros [X _]; cbn in X; intuition discriminate).
  set (rows := map (read_row pf2 (map (type_of false) dmsp_cols)) words).
  assert (W11 : Forall (fun ws => length ws = 11%nat) words).
  { apply Forall_forall. intros ws I. apply In_nth_error in I. destruct I as [i I]. assert (IL : (i < length kept)%nat) by (rewrite <- LW; apply nth_error_Some; congruence).
    apply nth_error_Some in IL. destruct (nth_error kept i) as [[[sat day] p]|] eqn:EK; [|congruence]. destruct (WD _ _ EK) as (ws' & m & sec & A & _ & _ & w & date & tod & r & x & y & f & x1 & y1 & x2 & y2 & -> & _). rewrite A in I. injection I as <-. reflexivity. }
  assert (LD : load_text pf2 1 dmsp_cols "%Y-%m-%d %H:%M:%S" stime etime (Some "dmsp-ssj") rf kw noargs (file_of h b es) = load dmsp_cols "%Y-%m-%d %H:%M:%S" stime etime (Some "dmsp-ssj") rf kw noargs rows).
  { rewrite FL. unfold load_text. change (time_flag dmsp_cols) with (Some false). cbv iota.
    pose proof (read_table_spec pf2 false dmsp_cols [(s2l "#sc date time r x y fom x_1 y_1 x_2 y_2" ++ [newl])] lines words 11 ND (rows_lines _ _ WL) ltac:(cbn; lia) W11) as RT.
    cbn [length] in RT. change (read_table pf2 false 1 dmsp_cols ((s2l "#sc date time r x y fom x_1 y_1 x_2 y_2" ++ [newl]) :: lines) = Ok rows) in RT. rewrite RT. reflexivity. }
  assert (TB : is_table dmsp_cols rows).
  { split; [exact ND|]. apply Forall_forall. intros row I. apply in_map_iff in I. destruct I as (ws & <- & I). rewrite Forall_forall in W11. apply W11 in I.
    rewrite read_row_length; rewrite map_length; [reflexivity|]. rewrite I. cbn. lia. }
  assert (RN : forall i sat day p, nth_error kept i = Some (sat, day, p) -> exists ws m sec, nth_error rows i = Some (read_row pf2 (map (type_of false) dmsp_cols) ws) /\ nth_error words i = Some ws /\ nth_error mids i = Some m /\ nth_error times i = Some sec).
  { intros i sat day p EK. destruct (WD _ _ EK) as (ws & m & sec & A & B & C & _). exists ws, m, sec. split; [|auto]. unfold rows. exact (map_nth_error _ _ _ A). }
  assert (ST : Forall2 (stamped dmsp_cols "%Y-%m-%d %H:%M:%S") rows times).
  { apply F2_iff_nth. split; [unfold rows; rewrite map_length; congruence|]. intros i row t ER ET.
    assert (IL : (i < length kept)%nat) by (rewrite <- LT; apply nth_error_Some; congruence). apply nth_error_Some in IL. destruct (nth_error kept i) as [[[sat day] p]|] eqn:EK; [|congruence].
    destruct (WD _ _ EK) as (ws & m & sec & A & B & C & w & date & tod & r & x & y & f & x1 & y1 & x2 & y2 & EW & I & M & WS & CL & _). rewrite C in ET. injection ET as <-.
    assert (EWR : row = read_row pf2 (map (type_of false) dmsp_cols) ws) by (unfold rows in ER; rewrite (map_nth_error _ _ _ A) in ER; congruence). subst ws row.
    right. split; [exact NY|]. split; [exact DF|]. destruct (plain_clock _ _ _ CL) as (_ & _ & L1 & L2). exists date, tod.
    split; [exists 1%nat; split; [reflexivity|]; cbn [map dmsp_cols type_of read_row read_cell nth_error]; vm_compute (type_of _ _); cbn [read_cell]; rewrite firstn_all2 by (unfold zlen in L1; lia); reflexivity|].
    split; [exists 2%nat; split; [reflexivity|]; cbn [map dmsp_cols type_of read_row read_cell nth_error]; vm_compute (type_of _ _); cbn [read_cell]; rewrite firstn_all2 by (unfold zlen in L2; lia); reflexivity|].
    destruct CL as (yr & mo & dd & n & hh & mi & sc & C1 & C2 & C3 & C4 & C5 & C6 & ->).
    destruct (C78_date_and_time_text yr mo dd n hh mi sc date tod [] C1 C2 C4 C5 C6 C3) as [X _]. rewrite app_nil_r in X. etransitivity; [exact (X (fun H => H))|]. f_equal. f_equal. f_equal. lia. }
  assert (RL : length rows <> 1%nat) by (unfold rows; rewrite map_length; congruence).
  destruct (C44_loads_partial F K dmsp_cols "%Y-%m-%d %H:%M:%S" stime etime (Some "dmsp-ssj") rf kw noargs rows times TB (or_intror DF) RL ST) as [d LO]; [|exact KW|].
  { destruct RF as [->|RF]; [left; split; [reflexivity|cbn; auto]|right; exact RF]. }
  destruct (load_spec _ _ _ _ _ _ _ _ _ _ TB LO) as (_ & times' & idx & ST' & SEL & L1 & L2 & L3 & _ & _ & _ & _ & G & CO).
  assert (ET : times' = times).
  { clear - ST ST' ND. revert times ST. induction ST' as [|row t rows times' H F IH]; intros ts ST; inversion ST; subst; [reflexivity|]. f_equal; [|apply IH; assumption].
    destruct H as [(Y & _)|(_ & _ & d & tod & A & B & C)]; [destruct Y as [Y _]; cbn in Y; intuition discriminate|].
    match goal with H : stamped _ _ row _ |- _ => destruct H as [(Y & _)|(_ & _ & d' & tod' & A' & B' & C')]; [destruct Y as [Y _]; cbn in Y; intuition discriminate|] end.
    apply cell_of_entry in A, B, A', B'; try exact ND. congruence. }
  subst times'. exists d, mids, times, idx. split; [rewrite LD; exact LO|].
  split. { apply F2_iff_nth. split; [symmetry; exact LM|]. intros i [[sat day] p] m EK EM. destruct (WD _ _ EK) as (ws & m' & sec & _ & B & _ & w & date & tod & r & x & y & f & x1 & y1 & x2 & y2 & _ & _ & M & _). rewrite B in EM. injection EM as <-. exact M. }
  split. { apply F2_iff_nth. split; [congruence|]. intros i m sec EM ES. assert (IL : (i < length kept)%nat) by (rewrite <- LT; apply nth_error_Some; congruence). apply nth_error_Some in IL. destruct (nth_error kept i) as [[[sat day] p]|] eqn:EK; [|congruence].
    destruct (WD _ _ EK) as (ws & m' & sec' & _ & B & C & w & date & tod & r & x & y & f & x1 & y1 & x2 & y2 & _ & _ & _ & WS & _). rewrite B in EM. rewrite C in ES. injection EM as <-. injection ES as <-. exact WS. }
  split; [exact SEL|]. split; [exact L1|]. split; [exact L2|]. split; [exact L3|].
  intros k i sat day p m KI EK EM. cbv zeta.
  destruct (WD _ _ EK) as (ws & m' & sec & EWS & EM' & _ & w & date & tod & r & x & y & f & x1 & y1 & x2 & y2 & EW & I & _ & _ & _ & S1 & S2 & S3 & S4 & S5 & S6 & S7 & S8). rewrite EM in EM'. injection EM' as <-. subst ws.
  set (P := place_of aacgm m (s_first p b)) in *. set (Q := place_of aacgm m (s_second p b)) in *.
  assert (ER : nth_error rows i = Some (read_row pf2 (map (type_of false) dmsp_cols) [w; date; tod; r; x; y; f; x1; y1; x2; y2])) by (unfold rows; exact (map_nth_error _ _ _ EWS)).
  change (read_row pf2 (map (type_of false) dmsp_cols) [w; date; tod; r; x; y; f; x1; y1; x2; y2]) with
    [read_cell pf2 TFloat w; read_cell pf2 TText date; read_cell pf2 TText tod; read_cell pf2 TFloat r; read_cell pf2 TFloat x; read_cell pf2 TFloat y; read_cell pf2 TFloat f; read_cell pf2 TFloat x1; read_cell pf2 TFloat y1; read_cell pf2 TFloat x2; read_cell pf2 TFloat y2] in ER.
  destruct (RW _ _ I) as (s & PS & QS). destruct (reads_R _ _ _ RD S1) as (vr & Pr & Nr). destruct (reads_R _ _ _ RD S2) as (vx & Px & Nx). destruct (reads_R _ _ _ RD S3) as (vy & Py & Ny).
  destruct (reads_Q _ _ _ RD S4) as (vf & Pf & Nf). destruct (reads_R _ _ _ RD S5) as (vx1 & Px1 & Nx1). destruct (reads_R _ _ _ RD S6) as (vy1 & Py1 & Ny1). destruct (reads_R _ _ _ RD S7) as (vx2 & Px2 & Nx2). destruct (reads_R _ _ _ RD S8) as (vy2 & Py2 & Ny2).
  cbn [read_cell] in ER. rewrite PS, Pr, Px, Py, Pf, Px1, Py1, Px2, Py2 in ER.
  pose proof (fun name v => attr_value dmsp_cols rows idx d k i _ name v G CO KI ER) as AT.
  assert (IN : forall name, In name (dmsp_cols ++ ["r_cent"; "phi_cent"]) -> In name (names_of dmsp_cols)) by (intros name H; exact H).
  split; [exists s; split; [apply AT; [apply IN; cbn; tauto|reflexivity]|exact QS]|].
  split; [eexists; split; [apply AT; [apply IN; cbn; tauto|reflexivity]|exact Nf]|].
  split; [eexists; split; [apply AT; [apply IN; cbn; tauto|reflexivity]|exact Nr]|].
  split; [eexists; split; [apply AT; [apply IN; cbn; tauto|reflexivity]|exact Nx1]|].
  split; [eexists; split; [apply AT; [apply IN; cbn; tauto|reflexivity]|exact Ny1]|].
  split; [eexists; split; [apply AT; [apply IN; cbn; tauto|reflexivity]|exact Nx2]|].
  split; [eexists; split; [apply AT; [apply IN; cbn; tauto|reflexivity]|exact Ny2]|].
  intros A B EP EQ. rewrite EP, EQ in Nr, Nx, Ny. cbn [half_way half_apart dawnward noonward option_map near3 fst snd] in Nr, Nx, Ny.
  destruct Nr as (qr & Er & Dr), Nx as (qx & Ex & Dx), Ny as (qy & Ey & Dy). injection Er as ->. injection Ex as ->. injection Ey as ->.
  exists qr, (fst (centre_of_xy (Q2R qx) (Q2R qy))), (snd (centre_of_xy (Q2R qx) (Q2R qy))).
  split; [apply AT; [apply IN; cbn; tauto|reflexivity]|]. split; [apply AT; [apply IN; cbn; tauto|reflexivity]|]. split; [apply AT; [apply IN; cbn; tauto|reflexivity]|].
  intros fc. exact (near_circle A B (Q2R qr) (Q2R qx) (Q2R qy) fc Dr Dx Dy).
Qed.
(** A hemisphere with one pass gives a file that is not loaded. *)
Theorem C165_single_pass_refuted :
  forall F K pf pf2 aacgm files ps bad h b stime etime inst (rf : given (corr F)) (kw : given K) noargs q,
    all_files pf files ps bad -> files <> [] -> all_dated ps -> kept_of (fun q => s_hemi (snd q) = h) ps [q] ->
    exists es, format_ssj pf aacgm files = Ok (es, bad) /\
      load_text pf2 1 dmsp_cols "%Y-%m-%d %H:%M:%S" stime etime inst rf kw noargs (file_of h b es) = Err IndexError.
Proof.
  intros F K pf pf2 aacgm files ps bad h b stime etime inst rf kw noargs q AF NE AD KQ.
  destruct (C164_passes_written_partial pf aacgm files ps bad AF NE AD) as (es & E & HF). destruct (HF h b) as (kept & lines & KO & FL & F2). clear HF. exists es. split; [exact E|].
  assert (EK : kept = [q]).
  { clear - KO KQ. remember [q] as o eqn:EO. clear EO. revert o KQ. induction KO as [|a l out A K IH|a l out A K IH]; intros o KQ; inversion KQ; subst; try contradiction; [reflexivity|f_equal|]; apply IH; assumption. }
  subst kept. inversion F2 as [|? l ? ? (ws & SP & PW) F3]; subst. inversion F3; subst. rewrite FL. unfold load_text. change (time_flag dmsp_cols) with (Some false). cbv iota.
  destruct q as [[sat day] p]. destruct PW as (t & sec & w & date & tod & r & x & y & f & x1 & y1 & x2 & y2 & EW & I & _ & _ & CL & S1 & S2 & S3 & S4 & S5 & S6 & S7 & S8).
  assert (PL : Forall plain ws).
  { rewrite EW. destruct (plain_clock _ _ _ CL) as (P1 & P2 & _). repeat (constructor; [first [exact (plain_integer _ _ I)|exact P1|exact P2|exact (plain_shows _ _ _ S4)|eapply written_plain; eassumption]|]). constructor. }
  assert (ND : NoDup dmsp_cols) by (unfold dmsp_cols; repeat (constructor; [cbn; intuition discriminate|]); constructor).
  assert (DL : data_lines [ws] [l]) by (apply rows_lines; constructor; [split; [rewrite EW; discriminate|split; assumption]|constructor]).
  pose proof (read_table_spec pf2 false dmsp_cols [(s2l "#sc date time r x y fom x_1 y_1 x_2 y_2" ++ [newl])] [l] [ws] 11 ND DL ltac:(cbn; lia) ltac:(constructor; [rewrite EW; reflexivity|constructor])) as RT.
  cbn [length map] in RT. change (read_table pf2 false 1 dmsp_cols [s2l "#sc date time r x y fom x_1 y_1 x_2 y_2" ++ [newl]; l] = Ok [read_row pf2 (map (type_of false) dmsp_cols) ws]) in RT. rewrite RT. reflexivity.
Qed.
(** The reading of numbers assumed above can be had. *)
Lemma written_no_point v s : written v s -> ~ In "."%char s.
Proof.
  assert (D : forall c n, is_digit_of c n -> c <> "."%char) by (intros c n [R1 R2] ->; change (code ".") with 46 in R2; lia).
  induction 1 as [c n W|s c v n W IH X]; [intros [->|[]]; exact (D _ _ W eq_refl)|]. intros I. apply in_app_or in I. destruct I as [I|[->|[]]]; [exact (IH I)|exact (D _ _ X eq_refl)].
Qed.
Lemma read_float_point s : In "."%char s -> read_float s = read_num s.
Proof.
  intros I. unfold read_float. destruct (py_int s) as [z|] eqn:E; [|reflexivity]. exfalso. apply py_int_whole in E. destruct E as (v & t & W & [->|[->| ->]]); apply written_no_point in W; [exact (W I)| |]; (destruct I as [I|I]; [discriminate I|exact (W I)]).
Qed.
Theorem C165_reads : reads read_float /\ reads_whole read_float.
Proof.
  split; [split; [|repeat split; reflexivity]|].
  - intros n z s SG. rewrite read_float_point; [exact (proj1 C126_reads n z s SG)|]. destruct SG as [D|(t & -> & D)]; destruct D as (w & f & a & b & -> & _); [|right]; apply in_or_app; right; left; reflexivity.
  - intros z s I. unfold read_float. rewrite (py_int_integer _ _ I). exists (inject_Z z). split; reflexivity.
Qed.
(** C164's passes taken twice: each hemisphere then has two of them. *)
Example C165_case : exists files ps kept, all_files read_num files ps [] /\ files <> [] /\ all_dated ps /\ kept_of (fun q => s_hemi (snd q) = 1) ps kept /\ length kept = 2%nat /\
  Forall (fun q => forall b, exists l m, x_lat (s_first (snd q) b) = Fin l /\ x_lon (s_first (snd q) b) = Fin m) kept.
Proof.
  exists [(f16_name, f16_lines); (f16_name, f16_lines)], ([(16, f16_day, f16_pass 1 f16_1); (16, f16_day, f16_pass (-1) f16_2)] ++ [(16, f16_day, f16_pass 1 f16_1); (16, f16_day, f16_pass (-1) f16_2)]), [(16, f16_day, f16_pass 1 f16_1); (16, f16_day, f16_pass 1 f16_1)].
  split; [|split; [discriminate|split; [|split; [|split; [reflexivity|]]]]].
  - pose proof f16_files as A. inversion A as [|f d fs ps bad PF AF E1 E2 E3|]; subst. inversion AF; subst. rewrite app_nil_r in E2.
    pose proof (af_good read_num _ d _ _ [] PF A) as X. rewrite E2 in X. rewrite ?app_nil_r, ?E2. exact X.
  - intros sat day p b I. apply in_app_or in I. destruct I as [I|I]; exact (f16_dated _ _ _ _ I).
  - cbn [app]. apply kept_in; [reflexivity|]. apply kept_out; [discriminate|]. apply kept_in; [reflexivity|]. apply kept_out; [discriminate|]. constructor.
  - repeat constructor; intros [|]; eexists; eexists; split; vm_compute; reflexivity.
Qed.
Print Assumptions C165_loaded_back_partial.
Print Assumptions C165_single_pass_refuted.
Print Assumptions C165_reads.
