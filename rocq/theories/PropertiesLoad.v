(** C44, C92-C97: loading and constructing boundaries. *)
From Coq Require Import String Reals Qreals ZArith QArith List Bool Sorted Lia Lra.
From Verif Require Import PyBase PyString RangeModel CoordModel CoordSpec TimeModel CycleModel CycleSpec LoadModel LoadSpec LoadProofs
  CorrectionSpec CorrectionProofs PropertiesCoord.
Import ListNotations.
Open Scope list_scope.

(** The first three records of an AMPERE file, one every two minutes. *)
Definition amp_cols : list string := ["date"; "time"; "r"; "x"; "y"; "fom"]%string.
Definition amp_fmt : str := s2l "%Y%m%d %H:%M".
Definition amp_row (d t : string) (r x y f : Q) : list cell :=
  [CStr (s2l d); CStr (s2l t); CFlt (Fin r); CFlt (Fin x); CFlt (Fin y); CFlt (Fin f)].
Definition amp_rows : list (list cell) :=
  [amp_row "20100101" "00:00" 11 1 (-2) (1#10); amp_row "20100101" "00:02" 12 1 (-3) (2#10); amp_row "20100101" "00:04" 13 2 (-3) (3#10)].
Definition amp_t0 : Z := 63397900800000000.
Definition amp_times : list Z := [amp_t0; amp_t0 + 120000000; amp_t0 + 240000000]%Z.
Lemma amp_table : is_table amp_cols amp_rows.
Proof.
  split; [|repeat constructor]. unfold amp_cols. repeat constructor; cbn; intuition discriminate.
Qed.
Lemma amp_not_year : ~ year_file amp_cols.
Proof. intros [H _]. cbn in H. intuition discriminate. Qed.
Lemma amp_date : date_file amp_cols.
Proof. split; cbn; auto. Qed.
Lemma amp_stamped : Forall2 (stamped amp_cols amp_fmt) amp_rows amp_times.
Proof.
  unfold amp_rows, amp_times.
  repeat (constructor; [right; split; [exact amp_not_year|]; split; [exact amp_date|];
    eexists; eexists; split; [exists 0%nat; split; reflexivity|]; split; [exists 1%nat; split; reflexivity|]; vm_compute; reflexivity|]).
  constructor.
Qed.
Lemma amp_selected : selected (Some (amp_t0 + 120000000)%Z) None amp_times [1; 2]%nat.
Proof.
  split; [repeat constructor; lia|]. unfold in_window, amp_times. intros i. split.
  - intros [<-|[<-|[]]]; eexists; (split; [reflexivity|]); (split; intros ? X; [injection X as <-; unfold amp_t0; lia|discriminate X]).
  - intros (t & E & [H _]). specialize (H _ eq_refl). destruct i as [|[|[|i]]]; cbn in E.
    + injection E as <-. unfold amp_t0 in *. lia.
    + cbn. auto.
    + cbn. auto.
    + destruct i; discriminate E.
Qed.

(** ** C44 *)
Theorem C44_records_kept_partial :
  (* missing: files of one record, C44_single_record_refuted *)
  forall F K cols fmt stime etime inst (rf : given (corr F)) (kw : given K) noargs rows d,
    is_table cols rows ->
    load cols fmt stime etime inst rf kw noargs rows = Ok (Some d) ->
    exists times idx,
      (* the times of the file, and the positions of the records in the window *)
      Forall2 (stamped cols fmt) rows times /\ selected stime etime times idx /\
      (* exactly these are kept, in order; the cursor is before the first *)
      l_records d = Z.of_nat (length idx) /\ l_rec_ind d = (-1)%Z /\
      Forall2 (fun i t => nth_error times i = Some t) idx (l_dtime d) /\
      (* every column of the file is an attribute, aligned with the times *)
      (forall name, In name cols -> ~ (In "x" cols /\ In "y" cols /\ (name = "r_cent" \/ name = "phi_cent"))%string ->
         exists sel, assoc name (l_attrs d) = Some sel /\
           Forall2 (fun i v => exists row c, nth_error rows i = Some row /\ entry cols row name c /\ v = VCell c) idx sel) /\
      (* and every attribute has one value per record *)
      (forall name sel, In (name, sel) (l_attrs d) -> length sel = length idx).
Proof.
  intros F K cols fmt stime etime inst rf kw noargs rows d T H. destruct (load_spec _ _ _ _ _ _ _ _ _ _ T H) as (_ & times & idx & A & B & C & D & E & _ & _ & _ & _ & G & I).
  exists times, idx. split; [exact A|]. split; [exact B|]. split; [exact C|]. split; [exact D|]. split; [exact E|]. split.
  - intros name J X. destruct (assoc_some name (l_attrs d)) as [sel S].
    { rewrite G. unfold names_of. destruct (has_xy cols); [apply in_or_app; left|]; exact J. }
    exists sel. split; [exact S|]. specialize (I _ _ (assoc_in _ _ _ S)). destruct T as [N _].
    eapply F2_impl; [|exact I]. cbn beta. intros i v (row & R & V). exists row. unfold value_of in V.
    assert (Y : has_xy cols && String.eqb name "r_cent" = false /\ has_xy cols && String.eqb name "phi_cent" = false).
    { unfold has_xy. destruct (str_in "x" cols) eqn:X1; [|auto]. destruct (str_in "y" cols) eqn:X2; [|auto].
      apply str_in_spec in X1. apply str_in_spec in X2. cbn. split; apply String.eqb_neq; intros ->; apply X; auto. }
    destruct Y as [Y1 Y2]. rewrite Y1, Y2 in V. destruct (cell_of cols row name) as [c|] eqn:CO; [|discriminate].
    exists c. cbn in V. injection V as <-. split; [exact R|]. split; [apply cell_of_entry; assumption|reflexivity].
  - intros name sel J. symmetry. eapply F2_length. exact (I _ _ J).
Qed.

Theorem C44_loads_partial :
  (* missing: files of one record, C44_single_record_refuted *)
  forall F K cols fmt stime etime inst (rf : given (corr F)) (kw : given K) noargs rows times,
    is_table cols rows -> year_file cols \/ date_file cols -> length rows <> 1%nat -> Forall2 (stamped cols fmt) rows times ->
    (rf = GNone /\ In inst [Some "image"; Some "ampere"; Some "dmsp-ssj"]%string \/ exists f, rf = GOne f) ->
    (kw = GNone \/ exists k, kw = GOne k) ->
    exists d, load cols fmt stime etime inst rf kw noargs rows = Ok (Some d).
Proof.
  intros F K cols fmt stime etime inst rf kw noargs rows times T TC L ST RF KW.
  pose proof (keep_selected stime etime times) as SEL. set (idx := map fst (keep stime etime 0 times)) in *.
  assert (R : exists fs, spread_as (length idx) (default_rfunc inst) rf fs).
  { destruct RF as [[-> I]|[f ->]]; [|eexists; reflexivity].
    destruct I as [<-|[<-|[<-|[]]]]; cbn; eauto. }
  assert (S : exists ks, spread_as (length idx) (Ok noargs) kw ks).
  { destruct KW as [->|[k ->]]; [cbn; eauto|eexists; reflexivity]. }
  destruct R as [fs R], S as [ks S]. eapply load_total; eassumption.
Qed.

(** A file of one record is not loaded. *)
Theorem C44_single_record_refuted :
  forall F K cols fmt stime etime inst (rf : given (corr F)) (kw : given K) noargs row,
    year_file cols \/ date_file cols ->
    load cols fmt stime etime inst rf kw noargs [row] = Err IndexError.
Proof.
  intros F K cols fmt stime etime inst rf kw noargs row TC. unfold load. destruct (time_flag_spec cols) as (F1 & F2 & F3).
  destruct (time_flag cols) as [flag|]; [reflexivity|]. exfalso. tauto.
Qed.

(** Without time columns nothing is loaded; a time that cannot be read stops the load,
    whether or not the record is asked for. *)
Theorem C44_times_needed :
  (forall F K cols fmt stime etime inst (rf : given (corr F)) (kw : given K) noargs rows,
     load cols fmt stime etime inst rf kw noargs rows = Ok None <-> ~ year_file cols /\ ~ date_file cols) /\
  (forall F K cols fmt stime etime inst (rf : given (corr F)) (kw : given K) noargs rows row,
     is_table cols rows -> year_file cols \/ date_file cols -> In row rows -> (forall t, ~ stamped cols fmt row t) ->
     exists e, load cols fmt stime etime inst rf kw noargs rows = Err e).
Proof.
  split.
  - intros F K cols fmt stime etime inst rf kw noargs rows. destruct (time_flag_spec cols) as (F1 & F2 & F3). split.
    + intros H. apply F3. unfold load in H. destruct (time_flag cols) as [flag|]; [|reflexivity]. exfalso.
      assert (X : forall A (m : res A) (k : A -> res (option (loaded F K))), (forall a, k a <> Ok None) -> bind m k <> Ok None).
      { intros A [a|e] k Hk; cbn; [apply Hk|discriminate]. }
      assert (Y : (times <- mapE (row_time flag cols fmt) rows ;;
          let kept := keep stime etime O times in
          let n := length kept in
          fs <- spread n (default_rfunc inst) rf ;;
          ks <- spread n (Ok noargs) kw ;;
          attrs <- attrs_of cols rows (map fst kept) (names_of cols) ;;
          Ok (Some (mkLoaded (Z.of_nat n) (-1)%Z (map snd kept) fs ks attrs))) <> Ok None).
      { do 4 (apply X; intros ?; cbv zeta). discriminate. }
      destruct rows as [|r [|r' rows]]; [exact (Y H)|discriminate|exact (Y H)].
    + intros H. unfold load. rewrite (proj2 F3 H). reflexivity.
  - intros F K cols fmt stime etime inst rf kw noargs rows row T TC I NS.
    destruct (load cols fmt stime etime inst rf kw noargs rows) as [[d|]|e] eqn:E; [| |eauto]; exfalso.
    + destruct (load_spec _ _ _ _ _ _ _ _ _ _ T E) as (_ & times & idx & A & _).
      clear - A I NS. induction A as [|r t rows times A1 A2 IH]; [destruct I|]. destruct I as [->|I]; [exact (NS t A1)|auto].
    + unfold load in E. destruct (time_flag_spec cols) as (F1 & F2 & F3). destruct (time_flag cols) as [flag|] eqn:TF; [|tauto].
      destruct rows as [|r [|r' rows]]; [destruct I|discriminate|].
      destruct (mapE (row_time flag cols fmt) (r :: r' :: rows)) as [times|] eqn:E1; cbn [bind] in E; [|discriminate]. cbv zeta in E.
      destruct (spread _ _ rf) in E; cbn [bind] in E; [|discriminate]. destruct (spread _ _ kw) in E; cbn [bind] in E; [|discriminate].
      destruct (attrs_of _ _ _ _) in E; cbn [bind] in E; discriminate.
Qed.

(** What was loaded can be cycled through (C01-C12 apply). *)
Theorem C44_can_be_cycled :
  forall F K cols fmt stime etime inst (rf : given (corr F)) (kw : given K) noargs rows d num_of mn mx,
    is_table cols rows -> In "fom"%string cols ->
    load cols fmt stime etime inst rf kw noargs rows = Ok (Some d) ->
    wf_boundary (as_boundary num_of mn mx d) /\ b_rec_ind (as_boundary num_of mn mx d) = (-1)%Z.
Proof.
  intros F K cols fmt stime etime inst rf kw noargs rows d num_of mn mx T FM H.
  destruct (load_spec _ _ _ _ _ _ _ _ _ _ T H) as (_ & times & idx & _ & _ & C & D & E & _ & _ & _ & _ & G & I).
  assert (LA : forall name sel, assoc name (l_attrs d) = Some sel -> length sel = length idx).
  { intros name sel S. symmetry. eapply F2_length. exact (I _ _ (assoc_in _ _ _ S)). }
  destruct (assoc_some "fom" (l_attrs d)) as [fom S].
  { rewrite G. unfold names_of. destruct (has_xy cols); [apply in_or_app; left|]; exact FM. }
  assert (LT : length (l_dtime d) = length idx) by (symmetry; eapply F2_length; exact E).
  split; [|exact D]. unfold wf_boundary, zlen, as_boundary. cbn [b_records b_dtime b_fom].
  rewrite S, C, map_length, LT, (LA _ _ S). split; [lia|]. split; [reflexivity|]. split; [reflexivity|].
  intros k l GA. unfold getattr in GA. cbn [b_fom b_dtime b_attrs] in GA.
  destruct (String.eqb k "fom"); [injection GA as <-; rewrite map_length, (LA _ _ S); reflexivity|].
  destruct (String.eqb k "dtime"); [injection GA as <-; rewrite map_length, LT; reflexivity|].
  assert (AM : forall k' l' a, assoc k' (map (fun p : string * list val => (fst p, AArr (map num_of (snd p)))) a) = Some (AArr l') ->
               exists sel, assoc k' a = Some sel /\ l' = map num_of sel).
  { intros k' l' a. induction a as [|[n sel] a IH]; cbn; [discriminate|]. destruct (String.eqb k' n); [|exact IH].
    intros X. injection X as <-. eauto. }
  destruct (AM _ _ _ GA) as (sel & SS & ->). rewrite map_length, (LA _ _ SS). reflexivity.
Qed.

Example C44_case : is_table amp_cols amp_rows /\ Forall2 (stamped amp_cols amp_fmt) amp_rows amp_times /\
  exists d : loaded unit unit, load amp_cols amp_fmt (Some (amp_t0 + 120000000)%Z) None (Some "ampere"%string) GNone GNone tt amp_rows = Ok (Some d) /\
    l_records d = 2%Z /\ l_dtime d = [amp_t0 + 120000000; amp_t0 + 240000000]%Z /\
    assoc "r"%string (l_attrs d) = Some [VCell (CFlt (Fin 12)); VCell (CFlt (Fin 13))].
Proof.
  split; [exact amp_table|]. split; [exact amp_stamped|].
  destruct (C44_loads_partial unit unit amp_cols amp_fmt (Some (amp_t0 + 120000000)%Z) None (Some "ampere"%string) GNone GNone tt amp_rows amp_times) as [d E].
  - exact amp_table.
  - right. exact amp_date.
  - discriminate.
  - exact amp_stamped.
  - left. split; [reflexivity|]. cbn. auto.
  - left. reflexivity.
  - exists d. split; [exact E|].
    assert (X : load (F := unit) (K := unit) amp_cols amp_fmt (Some (amp_t0 + 120000000)%Z) None (Some "ampere"%string) GNone GNone tt amp_rows = Ok (Some d)) by exact E.
    unfold load in X. cbn [amp_rows time_flag] in X.
    assert (TF : time_flag amp_cols = Some false) by reflexivity. rewrite TF in X.
    rewrite (proj2 (times_spec amp_cols amp_fmt amp_rows amp_times false (proj1 amp_table) TF) amp_stamped) in X. cbn [bind] in X.
    cbv zeta in X.
    assert (KP : keep (Some (amp_t0 + 120000000)%Z) None 0 amp_times = [(1%nat, (amp_t0 + 120000000)%Z); (2%nat, (amp_t0 + 240000000)%Z)]) by reflexivity.
    rewrite KP in X. cbn in X. injection X as <-. cbn. auto.
Qed.
Print Assumptions C44_records_kept_partial.
Print Assumptions C44_loads_partial.
Print Assumptions C44_single_record_refuted.
Print Assumptions C44_times_needed.
Print Assumptions C44_can_be_cycled.
