(** C62, C63, C66, C106, C107: SuperMAG files. *)
From Coq Require Import String Ascii ZArith List Bool Lia.
From Verif Require Import PyBase PyString TimeModel TimeSpec TimeProofs FilesModel FilesProofs TextSpec TextProofs SmagModel SmagSpec SmagProofs LoadProofs.
Import ListNotations.
Open Scope string_scope.
Open Scope list_scope.
Open Scope Z_scope.

(** ** C66 *)
Theorem C66_size_gate :
  forall isfile size, 0 <= size -> (test_file isfile size = true <-> isfile = true /\ 0 < size <= 2000000000).
Proof.
  intros f n N. unfold test_file. destruct f; cbn [negb]; [|split; [discriminate|intros [H _]; discriminate]].
  destruct (Z.ltb_spec 2000000000 n), (Z.eqb_spec n 0); (split; [intros H'; try discriminate H'|intros [_ H']; try lia; try reflexivity]); (split; [reflexivity|lia]).
Qed.
Example C66_case : test_file true 2000000000 = true /\ test_file true 2000000001 = false /\ test_file true 0 = false /\ test_file false 5 = false.
Proof. repeat split. Qed.
Print Assumptions C66_size_gate.

(** ** C62 *)
Lemma index_idx k ps : k = "SML" \/ k = "SMU" -> index_value (s2l k) ps (idx k (fold_left (fun d p => setkey (fst p) (snd p) d) ps no_index)).
Proof.
  intros K. induction ps as [|[q z] ps IH] using rev_ind.
  - cbn [fold_left]. replace (idx k no_index) with 999999 by (destruct K; subst; reflexivity). constructor. intros z [].
  - rewrite fold_left_app. cbn [fold_left fst snd]. set (l := fold_left _ ps no_index) in *.
    assert (LK : forall l : list (str * Z), lookup (s2l k) (setkey q z l) = if str_eqb (s2l k) q then Some z else lookup (s2l k) l).
    { induction l0 as [|[k' w] t IH']; cbn [setkey lookup].
      - destruct (str_eqb (s2l k) q); reflexivity.
      - destruct (str_eqb q k') eqn:Q; cbn [lookup].
        + apply str_eqb_spec in Q. subst k'. destruct (str_eqb (s2l k) q); reflexivity.
        + rewrite IH'. destruct (str_eqb (s2l k) q) eqn:Q2; [|reflexivity]. apply str_eqb_spec in Q2. subst q. rewrite Q. reflexivity. }
    unfold idx. rewrite LK. destruct (str_eqb (s2l k) q) eqn:Q.
    + apply str_eqb_spec in Q. subst q. exact (iv_last (s2l k) ps [] z (fun z' H => H)).
    + fold (idx k l). assert (NQ : q <> s2l k) by (intros ->; rewrite (proj2 (str_eqb_spec (s2l k) (s2l k)) eq_refl) in Q; discriminate).
      remember (idx k l) as v eqn:EV. clear EV. destruct IH as [l0 N|l1 l2 v N].
      * constructor. intros z' I. apply in_app_or in I. destruct I as [I|[E|[]]]; [exact (N _ I)|injection E as -> _; exact (NQ eq_refl)].
      * rewrite <- app_assoc. cbn [app]. constructor. intros z' I. apply in_app_or in I. destruct I as [I|[E|[]]]; [exact (N _ I)|injection E as -> _; exact (NQ eq_refl)].
Qed.

Section S.
Context {V : Type} (pf : str -> res V) (nanfill : V -> V).
Notation entries p := (rows_of (zlen (b_st (fst p))) (snd p) (fst p)).
Lemma column_of (f : @row V -> cell V) (P : block V -> station V -> cell V -> Prop) bs ts :
  Forall2 instant bs ts ->
  (forall b t s, instant b t -> P b s (f (mkRow (date_of b) t (zlen (b_st b)) (ind_of b) s))) ->
  Forall2 (fun p c => P (fst p) (snd p) c) (stations_of bs) (map f (concat (map (fun p => entries p) (combine bs ts)))).
Proof.
  intros F H. induction F as [|b t bs ts I F IH]; [constructor|]. unfold stations_of in *. cbn [flat_map combine map concat]. rewrite map_app. apply Forall2_app; [|exact IH].
  unfold rows_of. cbn [fst snd]. rewrite map_map. pose proof (fun s => H b t s I) as Hs. revert Hs. generalize (zlen (b_st b)) as n. intros n Hs. clear H IH F.
  induction (b_st b) as [|s l IH]; cbn [map]; constructor; [apply Hs|exact IH].
Qed.
Notation unfill := (fun c : cell V => match c with CF v => CF (nanfill v) | _ => c end).
Lemma lookup_fill k (t : table V) : lookup k (replace_fill nanfill t) = option_map (fun l => if member k filled then map unfill l else l) (lookup k t).
Proof.
  unfold replace_fill. induction t as [|[k' l] t IH]; [reflexivity|]. cbn [map fst snd lookup option_map].
  destruct (str_eqb k k') eqn:E; [|exact IH]. apply str_eqb_spec in E. subst k'. reflexivity.
Qed.
Lemma all_columns bs ts k : Forall2 instant bs ts -> In k columns ->
  exists cells, lookup (s2l k) (replace_fill nanfill (tab (concat (map (fun p => entries p) (combine bs ts))))) = Some cells /\
    Forall2 (fun p c => value nanfill k (fst p) (snd p) c) (stations_of bs) cells.
Proof.
  intros F K. set (rows := concat _).
  assert (Z : forall b : bool, forall f : @row V -> cell V, lookup (s2l k) (tab rows) = Some (map f rows) -> member (s2l k) filled = b ->
    (forall b' t s, instant b' t -> value nanfill k b' s ((if b then unfill else fun c => c) (f (mkRow (date_of b') t (zlen (b_st b')) (ind_of b') s)))) ->
    exists cells, lookup (s2l k) (replace_fill nanfill (tab rows)) = Some cells /\ Forall2 (fun p c => value nanfill k (fst p) (snd p) c) (stations_of bs) cells).
  { intros b f L M H. rewrite lookup_fill, L, M. cbn [option_map]. eexists. split; [reflexivity|]. destruct b; [rewrite map_map|]; apply (column_of _ (value nanfill k)); assumption. }
  unfold columns in K. cbn [In] in K.
  repeat match type of K with _ \/ _ => destruct K as [<-|K] | False => destruct K end.
  all: eapply Z; [reflexivity|reflexivity|].
  all: intros b' t s I; unfold value; cbv iota beta; cbn [r_date r_time r_nst r_ind r_st].
  all: repeat match goal with |- (?a = ?a /\ _) \/ _ => left; split; [reflexivity|] | |- (_ = _ /\ _) \/ _ => right | |- _ /\ _ => split; [reflexivity|] end; try reflexivity.
  - exists t. split; [exact I|reflexivity].
  - eexists. split; [|reflexivity]. apply index_idx. left. reflexivity.
  - eexists. split; [|reflexivity]. apply index_idx. right. reflexivity.
Qed.
Lemma load_whole size hs bs liness tail s' ts : 0 < size <= 2000000000 ->
  smag_lines pf sm_start (hs ++ concat liness ++ tail) = Ok s' -> sm_hflag s' = false -> sm_head s' = hs ->
  sm_out s' = tab (concat (map (fun p => entries p) (combine bs ts))) ->
  load_supermag pf nanfill true size (hs ++ concat liness ++ tail) = Ok (hs, replace_fill nanfill (tab (concat (map (fun p => entries p) (combine bs ts))))).
Proof.
  intros N E H1 H2 H3. unfold load_supermag. rewrite (proj2 (C66_size_gate true size ltac:(lia)) (conj eq_refl N)). cbn [negb]. rewrite E. cbn [bind]. rewrite H1, H2, H3. reflexivity.
Qed.

(** Every station line of a well-written file, in order, fills one place of every column:
    with the time and indices of its block and its own values. *)
Theorem C62_every_line_loaded size hs bs liness : 0 < size <= 2000000000 -> header hs -> Forall2 (whole_block pf) bs liness ->
  exists t, load_supermag pf nanfill true size (hs ++ concat liness) = Ok (hs, t) /\ map fst t = map s2l columns /\
    forall k, In k columns -> exists cells, lookup (s2l k) t = Some cells /\
      Forall2 (fun p c => value nanfill k (fst p) (snd p) c) (stations_of bs) cells.
Proof.
  intros N H F. destruct (header_step pf hs H) as (s & E & B). destruct (blocks_step pf hs bs liness F _ _ B) as (s' & ts & E' & FT & B').
  destruct B' as (B1 & B2 & B3 & B4 & B5). eexists. split; [|split; [|intros k K; apply (all_columns bs ts k FT K)]]; [|reflexivity].
  rewrite <- (app_nil_r (concat liness)). apply (load_whole size hs bs liness [] s' ts N); try assumption.
  rewrite app_nil_r, lines_app, E. exact E'.
Qed.
(** No file, or one of the wrong size, gives nothing. *)
Theorem C62_file_refused isfile size lines : isfile = false \/ size = 0 \/ 2000000000 < size ->
  load_supermag pf nanfill isfile size lines = Ok ([], []).
Proof.
  intros H. unfold load_supermag. replace (test_file isfile size) with false; [reflexivity|]. symmetry. unfold test_file.
  destruct isfile; [|reflexivity]. cbn [negb]. destruct H as [H|[->|H]]; [discriminate|reflexivity|]. apply Z.ltb_lt in H. rewrite H. reflexivity.
Qed.
(** A file without the rule is all header. *)
Theorem C62_no_rule size lines : 0 < size <= 2000000000 -> Forall (fun l => contains rule l = false) lines ->
  load_supermag pf nanfill true size lines = Ok (lines, []).
Proof.
  intros N F. unfold load_supermag. rewrite (proj2 (C66_size_gate true size ltac:(lia)) (conj eq_refl N)). cbn [negb].
  assert (G : forall h, Forall (fun l => contains rule l = false) h -> forall pre out, smag_lines pf (mkSm pre true (-1) [] 0 0 no_index out) h = Ok (mkSm (pre ++ h) true (-1) [] 0 0 no_index out)).
  { induction 1 as [|l h' C F' IH]; intros pre out; cbn [smag_lines]; [rewrite app_nil_r; reflexivity|].
    unfold smag_line at 1. cbn [sm_hflag sm_head sm_n sm_date sm_time sm_snum sm_ind sm_out]. rewrite C. cbn [negb bind]. rewrite IH, <- app_assoc. reflexivity. }
  unfold sm_start. rewrite (G lines F). reflexivity.
Qed.
(** A blank line after the header, between blocks or at the end, is an IndexError. *)
Theorem C62_blank_line_raises size hs bs liness line rest : 0 < size <= 2000000000 -> header hs -> Forall2 (whole_block pf) bs liness -> blank line ->
  load_supermag pf nanfill true size (hs ++ concat liness ++ line :: rest) = Err IndexError.
Proof.
  intros N H F BL. destruct (header_step pf hs H) as (s & E & B). destruct (blocks_step pf hs bs liness F _ _ B) as (s' & ts & E' & FT & B').
  destruct B' as (B1 & B2 & B3 & B4 & B5). unfold load_supermag. rewrite (proj2 (C66_size_gate true size ltac:(lia)) (conj eq_refl N)). cbn [negb].
  rewrite lines_app, E. cbn [bind]. rewrite lines_app, E'. cbn [bind smag_lines]. unfold smag_line. rewrite B2, B3, (words_spaced [] line) by (constructor; exact BL). reflexivity.
Qed.

(** ** C63 *)
Theorem C63_last_block_partial size hs bs liness b lines : 0 < size <= 2000000000 -> header hs -> Forall2 (whole_block pf) bs liness ->
  b_st b = [] -> written_block pf b 0 lines ->
  load_supermag pf nanfill true size (hs ++ concat liness ++ lines) = load_supermag pf nanfill true size (hs ++ concat liness).
Proof.
  intros N H F NS W. destruct (header_step pf hs H) as (s & E & B). destruct (blocks_step pf hs bs liness F _ _ B) as (s' & ts & E' & FT & B').
  pose proof W as (dl & ils & sls & _ & _ & [t IN] & _ & _). destruct (empty_step pf hs _ _ b lines t B' W NS IN) as (s2 & E2 & I2).
  destruct B' as (B1 & B2 & B3 & B4 & B5). destruct I2 as (I1 & I2 & I3 & I4 & I5 & I6 & I7 & I8).
  rewrite (load_whole size hs bs liness lines s2 ts N); try assumption.
  - rewrite <- (app_nil_r (concat liness)) at 1. symmetry. apply (load_whole size hs bs liness [] s' ts N); try assumption. rewrite app_nil_r, lines_app, E. exact E'.
  - rewrite lines_app, E. cbn [bind]. rewrite lines_app, E'. exact E2.
Qed.
(** A line with seven words is not a station's. *)
Lemma short_station s ws : (length ws < 8)%nat -> exists e, station_line pf s ws = Err e.
Proof.
  intros L. unfold station_line. destruct (sm_date s) as [|? [|? [|? [|? [|? [|? [|]]]]]]]; try (eexists; reflexivity).
  assert (G : forall k : cell V -> res (sm V), exists e, (x <- fltE pf ws 7 ;; k x) = Err e).
  { intros k. exists IndexError. unfold fltE, getE, py_get. replace ((0 <=? 7) && (7 <? Z.of_nat (length ws))) with false by (symmetry; apply andb_false_iff; rewrite Z.ltb_ge; lia).
    replace ((- Z.of_nat (length ws) <=? 7) && (7 <? 0)) with false by (symmetry; apply andb_false_iff; right; reflexivity). reflexivity. }
  repeat match goal with
  | |- exists e, (x <- fltE pf ws 7 ;; _) = Err e => apply G
  | |- exists e, (x <- ?a ;; _) = Err e => destruct a; cbn [bind]; [|eexists; reflexivity]
  end.
Qed.
Lemma date_words b count dl : @written_date V b count dl -> length (words [] dl) = 7%nat.
Proof. intros (ws & SP & FW). rewrite (words_spaced _ _ SP). apply F2_length in FW. symmetry. exact FW. Qed.
Theorem C63_empty_block_refuted size hs bs liness b lines (b2 : block V) c2 dl rest : 0 < size <= 2000000000 -> header hs -> Forall2 (whole_block pf) bs liness ->
  b_st b = [] -> written_block pf b 0 lines -> written_date b2 c2 dl ->
  exists e, load_supermag pf nanfill true size (hs ++ concat liness ++ lines ++ dl :: rest) = Err e.
Proof.
  intros N H F NS W D. destruct (header_step pf hs H) as (s & E & B). destruct (blocks_step pf hs bs liness F _ _ B) as (s' & ts & E' & FT & B').
  pose proof W as (dl0 & ils & sls & _ & _ & [t IN] & _ & _). destruct (empty_step pf hs _ _ b lines t B' W NS IN) as (s2 & E2 & I2).
  destruct I2 as (I1 & I2 & I3 & I4 & I5 & I6 & I7 & I8).
  unfold load_supermag. rewrite (proj2 (C66_size_gate true size ltac:(lia)) (conj eq_refl N)). cbn [negb].
  rewrite lines_app, E. cbn [bind]. rewrite lines_app, E'. cbn [bind]. rewrite lines_app, E2. cbn [bind smag_lines]. unfold smag_line. rewrite I2, I3. change (0 <? 0) with false. cbv iota.
  pose proof (date_words _ _ _ D) as L. destruct (short_station s2 (words [] dl) ltac:(lia)) as [e Q]. exists e.
  destruct (words [] dl) as [|? [|? [|]]]; try discriminate L; rewrite Q; reflexivity.
Qed.

(** ** C106 *)
(** The columns of measurements hold no fill value... *)
Theorem C106_fill_replaced_partial size hs bs liness fill k t cells : 0 < size <= 2000000000 -> header hs -> Forall2 (whole_block pf) bs liness ->
  (forall v, nanfill v <> fill) -> In k ["BN"; "BE"; "BZ"; "MLT"; "DEC"; "SZA"] ->
  load_supermag pf nanfill true size (hs ++ concat liness) = Ok (hs, t) -> lookup (s2l k) t = Some cells -> ~ In (CF fill) cells.
Proof.
  intros N H F NF K L LK I. destruct (C62_every_line_loaded size hs bs liness N H F) as (t' & L' & _ & C). rewrite L in L'. injection L' as <-.
  destruct (C k) as (cells' & LK' & F2). { cbn in K |- *. intuition. } rewrite LK in LK'. injection LK' as <-. clear - F2 NF K I.
  induction F2 as [|p c ps cs P F2 IH]; [exact I|]. destruct I as [->|I]; [|exact (IH I)].
  unfold value in P. cbn in K. repeat (destruct K as [<-|K]); try destruct K;
  repeat match type of P with _ \/ _ => destruct P as [P|P] end; destruct P as [A P]; try discriminate A; injection P as P; exact (NF _ (eq_sym P)).
Qed.
(** ... but the magnetic latitude is passed on as it is. *)
Theorem C106_latitude_refuted size hs bs liness fill b s : 0 < size <= 2000000000 -> header hs -> Forall2 (whole_block pf) bs liness ->
  In (b, s) (stations_of bs) -> st_mlat s = fill ->
  exists t cells, load_supermag pf nanfill true size (hs ++ concat liness) = Ok (hs, t) /\ lookup (s2l "MLAT") t = Some cells /\ In (CF fill) cells.
Proof.
  intros N H F I E. destruct (C62_every_line_loaded size hs bs liness N H F) as (t & L & _ & C). destruct (C "MLAT") as (cells & LK & F2); [cbn; intuition|].
  exists t, cells. split; [exact L|]. split; [exact LK|]. clear - F2 I E.
  induction F2 as [|p c ps cs P F2 IH]; [destruct I|]. destruct I as [->|I]; [left|right; exact (IH I)].
  unfold value in P. cbn [fst snd] in P. repeat match type of P with _ \/ _ => destruct P as [P|P] end; destruct P as [A P]; try discriminate A. rewrite P, E. reflexivity.
Qed.

(** ** C107 *)
(** A file cut inside a line of data is refused, whether it is then too short
    to be read... *)
Theorem C107_cut_line_partial size hs bs liness b count lines line : 0 < size <= 2000000000 -> header hs -> Forall2 (whole_block pf) bs liness ->
  written_block pf b count lines -> zlen (b_st b) < count -> (length (words [] line) < 8)%nat -> length (words [] line) <> 2%nat ->
  exists e, load_supermag pf nanfill true size (hs ++ concat liness ++ lines ++ [line]) = Err e.
Proof.
  intros N H F W C L8 L2. destruct (header_step pf hs H) as (s & E & B). destruct (blocks_step pf hs bs liness F _ _ B) as (s' & ts & E' & FT & B').
  pose proof W as (dl0 & ils & sls & _ & _ & [t IN] & _ & _). destruct (cut_step pf hs _ _ b count lines t B' W C IN) as (s2 & E2 & I2).
  destruct I2 as (I1 & I2 & I3 & I4 & I5 & I6 & I7 & I8).
  unfold load_supermag. rewrite (proj2 (C66_size_gate true size ltac:(lia)) (conj eq_refl N)). cbn [negb].
  rewrite lines_app, E. cbn [bind]. rewrite lines_app, E'. cbn [bind]. rewrite lines_app, E2. cbn [bind smag_lines]. unfold smag_line. rewrite I2, I3.
  replace (zlen (b_st b) <? 0) with false by (symmetry; apply Z.ltb_ge; unfold zlen; lia). cbv iota.
  destruct (short_station s2 (words [] line) L8) as [e Q]. exists e.
  destruct (words [] line) as [|? [|? [|]]]; try (cbn in L2; congruence); rewrite Q; reflexivity.
Qed.
(** ... but one cut between lines is not: the stations that are there are returned. *)
Theorem C107_cut_block_refuted size hs bs liness b count lines : 0 < size <= 2000000000 -> header hs -> Forall2 (whole_block pf) bs liness ->
  written_block pf b count lines -> zlen (b_st b) < count ->
  exists t, load_supermag pf nanfill true size (hs ++ concat liness ++ lines) = Ok (hs, t) /\
    exists cells, lookup (s2l "STID") t = Some cells /\ cells = map (fun p => CS (st_id (snd p))) (stations_of (bs ++ [b])).
Proof.
  intros N H F W C. destruct (header_step pf hs H) as (s & E & B). destruct (blocks_step pf hs bs liness F _ _ B) as (s' & ts & E' & FT & B').
  pose proof W as (dl0 & ils & sls & _ & _ & [t IN] & _ & _). destruct (cut_step pf hs _ _ b count lines t B' W C IN) as (s2 & E2 & I2).
  destruct I2 as (I1 & I2 & I3 & I4 & I5 & I6 & I7 & I8). cbn [app] in I8.
  unfold load_supermag. rewrite (proj2 (C66_size_gate true size ltac:(lia)) (conj eq_refl N)). cbn [negb].
  rewrite lines_app, E. cbn [bind]. rewrite lines_app, E'. cbn [bind]. rewrite E2. cbn [bind]. rewrite I2, I1, I8. eexists. split; [reflexivity|].
  rewrite lookup_fill. eexists. split; [reflexivity|]. change (member (s2l "STID") filled) with false. cbv iota. unfold stations_of. rewrite flat_map_app, !map_app. cbn [flat_map]. rewrite app_nil_r. f_equal.
  - clear - FT. induction FT as [|b t bs ts I F IH]; [reflexivity|]. cbn [combine map concat flat_map fst snd]. rewrite !map_app, IH. f_equal. unfold rows_of. rewrite !map_map. reflexivity.
  - unfold rows_of. rewrite !map_map. reflexivity.
Qed.
End S.

(** ** A file meeting the hypotheses *)
(** Numbers are read as the texts themselves. *)
Definition txt (s : str) : res str := Ok s.
Definition demo_st (id : string) (bn : string) : station str := mkSt (s2l id) (s2l bn) (s2l "2.0") (s2l "3.0") (s2l "1.5") (s2l "65.1") (s2l "4.0") (s2l "90.0").
Definition demo1 : block str := mkBl 2000 5 5 0 0 0 [(s2l "SML", -195); (s2l "SMU", 160)] [demo_st "AAA" "1.0"; demo_st "BBB" "999999"].
Definition demo2 : block str := mkBl 2000 5 5 0 1 0 [] [demo_st "CCC" "7.0"].
Definition demo_head : list str := [s2l "SuperMAG"; s2l "========================================="].
Definition demo_lines1 : list str := map s2l ["2000 05 05 00 00 00 2"; "SML -195"; "SMU 160"; "AAA 1.0 2.0 3.0 1.5 65.1 4.0 90.0"; "BBB 999999 2.0 3.0 1.5 65.1 4.0 90.0"].
Definition demo_lines2 : list str := map s2l ["2000 05 05 00 01 00 1"; "CCC 7.0 2.0 3.0 1.5 65.1 4.0 90.0"].
Definition demo_fill (s : str) : str := if str_eqb s (s2l "999999") then s2l "nan" else s.
Example C62_case :
  exists t, load_supermag txt demo_fill true 300 (demo_head ++ demo_lines1 ++ demo_lines2) = Ok (demo_head, t) /\
    lookup (s2l "BN") t = Some [CF (s2l "1.0"); CF (s2l "nan"); CF (s2l "7.0")] /\
    lookup (s2l "SML") t = Some [CZ (-195); CZ (-195); CZ 999999] /\ lookup (s2l "MIN") t = Some [CZ 0; CZ 0; CZ 1].
Proof. eexists. split; [vm_compute; reflexivity|]. repeat split. Qed.
Ltac line ws := exists (map s2l ws); split; [match goal with |- spaced ?l _ => exact (joinb l eq_refl) end|].
Lemma demo_header : header demo_head.
Proof. exists [s2l "SuperMAG"], (s2l "========================================="). split; [reflexivity|]. split; [repeat constructor|reflexivity]. Qed.
Lemma demo_blocks : Forall2 (whole_block txt) [demo1; demo2] [demo_lines1; demo_lines2].
Proof.
  constructor; [|constructor; [|constructor]]; (split; [|discriminate]).
  - exists (s2l "2000 05 05 00 00 00 2"), (map s2l ["SML -195"; "SMU 160"]), (map s2l ["AAA 1.0 2.0 3.0 1.5 65.1 4.0 90.0"; "BBB 999999 2.0 3.0 1.5 65.1 4.0 90.0"]).
    split; [reflexivity|]. split; [|split; [|split]].
    + line ["2000"; "05"; "05"; "00"; "00"; "00"; "2"]. repeat (constructor; [apply intb_integer; reflexivity|]). constructor.
    + eexists. exists (ordinal 2000 5 5). split; [apply calendar_day_spec; split; [cbn; lia|split; [cbn; lia|split; [split; vm_compute; discriminate|reflexivity]]]|]. cbn. repeat split; try lia.
    + constructor; [|constructor; [|constructor]]; (split; [cbn; tauto|]).
      * exists (s2l "-195"). split; [apply intb_integer; reflexivity|exact (joinb (map s2l ["SML"; "-195"]) eq_refl)].
      * exists (s2l "160"). split; [apply intb_integer; reflexivity|exact (joinb (map s2l ["SMU"; "160"]) eq_refl)].
    + constructor; [|constructor; [|constructor]].
      * line ["1.0"; "2.0"; "3.0"; "1.5"; "65.1"; "4.0"; "90.0"]. repeat constructor.
      * line ["999999"; "2.0"; "3.0"; "1.5"; "65.1"; "4.0"; "90.0"]. repeat constructor.
  - exists (s2l "2000 05 05 00 01 00 1"), [], (map s2l ["CCC 7.0 2.0 3.0 1.5 65.1 4.0 90.0"]).
    split; [reflexivity|]. split; [|split; [|split]].
    + line ["2000"; "05"; "05"; "00"; "01"; "00"; "1"]. repeat (constructor; [apply intb_integer; reflexivity|]). constructor.
    + eexists. exists (ordinal 2000 5 5). split; [apply calendar_day_spec; split; [cbn; lia|split; [cbn; lia|split; [split; vm_compute; discriminate|reflexivity]]]|]. cbn. repeat split; try lia.
    + constructor.
    + constructor; [|constructor]. line ["7.0"; "2.0"; "3.0"; "1.5"; "65.1"; "4.0"; "90.0"]. repeat constructor.
Qed.
Example C62_hypotheses : 0 < 300 <= 2000000000 /\ header demo_head /\ Forall2 (whole_block txt) [demo1; demo2] [demo_lines1; demo_lines2].
Proof. split; [lia|]. split; [exact demo_header|exact demo_blocks]. Qed.
(** A block announcing no stations, in the middle of a file and at its end. *)
Example C63_case :
  load_supermag txt demo_fill true 300 (demo_head ++ demo_lines1 ++ [s2l "2000 05 05 00 01 00 0"] ++ demo_lines2) = Err IndexError /\
  load_supermag txt demo_fill true 300 (demo_head ++ demo_lines1 ++ [s2l "2000 05 05 00 01 00 0"]) = load_supermag txt demo_fill true 300 (demo_head ++ demo_lines1).
Proof. split; vm_compute; reflexivity. Qed.
Example C106_case : forall v, demo_fill v <> s2l "999999".
Proof. intros v. unfold demo_fill. destruct (str_eqb v (s2l "999999")) eqn:E; [discriminate|]. intros ->. discriminate E. Qed.
Example C107_case :
  load_supermag txt demo_fill true 300 (demo_head ++ demo_lines2 ++ firstn 4 demo_lines1) <> Err IndexError /\
  load_supermag txt demo_fill true 300 (demo_head ++ demo_lines2 ++ firstn 3 demo_lines1 ++ [s2l "AAA 1.0 2.0"]) = Err IndexError.
Proof. split; [vm_compute; discriminate|vm_compute; reflexivity]. Qed.
Example C62_no_rule_case : load_supermag txt demo_fill true 300 (demo_lines1 ++ demo_lines2) = Ok (demo_lines1 ++ demo_lines2, []).
Proof. apply C62_no_rule; [split; reflexivity || discriminate|]. repeat constructor. Qed.
Print Assumptions C62_every_line_loaded.
Print Assumptions C62_file_refused.
Print Assumptions C62_no_rule.
Print Assumptions C62_blank_line_raises.
Print Assumptions C63_last_block_partial.
Print Assumptions C63_empty_block_refuted.
Print Assumptions C106_fill_replaced_partial.
Print Assumptions C106_latitude_refuted.
Print Assumptions C107_cut_line_partial.
Print Assumptions C107_cut_block_refuted.
