(** Proofs about reading boundary files. *)
From Coq Require Import String Ascii Reals ZArith QArith List Bool Lia.
From Verif Require Import PyBase PyString TimeModel TimeSpec CycleModel RangeModel CoordModel CoordSpec FilesModel FilesProofs LoadModel LoadSpec LoadProofs TextSpec TextProofs
  GeneralModel GeneralSpec GeneralProofs2 SsjModel SsjSpec.
Import ListNotations.
Open Scope string_scope.
Open Scope list_scope.
Open Scope Z_scope.

Lemma digits_written (t : str) : all_digits t && negb (zlen t =? 0) = true -> written (dval t) t.
Proof.
  intros H. apply andb_true_iff in H. destruct H as [D N]. apply written_dval; [|exact D]. intros ->. discriminate N.
Qed.
Lemma py_int_whole w z : py_int w = Ok z -> whole_text w.
Proof.
  unfold py_int. destruct w as [|c t]; [discriminate|]. destruct (Ascii.eqb_spec c "-") as [->|N1].
  - destruct (_ && _) eqn:D; [|discriminate]. intros _. exists (dval t), t. split; [exact (digits_written _ D)|auto].
  - destruct (Ascii.eqb_spec c "+") as [->|N2].
    + destruct (_ && _) eqn:D; [|discriminate]. intros _. exists (dval t), t. split; [exact (digits_written _ D)|auto].
    + destruct (all_digits (c :: t)) eqn:D; [|discriminate]. intros _. exists (dval (c :: t)), (c :: t). split; [|auto]. apply written_dval; [discriminate|exact D].
Qed.
Lemma cell_denotes pf cols flag name w : time_flag cols = Some flag -> denotes pf cols name w (read_cell pf (type_of flag name) w).
Proof.
  intros TF. destruct (time_flag_spec cols) as (F1 & F2 & _).
  assert (INT : exists z, CInt (match py_int w with Ok z => z | Err _ => -1 end) = CInt z /\ (forall y, integer y w -> z = y) /\ (~ whole_text w -> z = -1)).
  { eexists. split; [reflexivity|]. split.
    - intros y I. rewrite (py_int_integer _ _ I). reflexivity.
    - intros N. destruct (py_int w) as [z|] eqn:E; [exfalso; apply N; exact (py_int_whole _ _ E)|reflexivity]. }
  assert (FLT : exists x, CFlt (match pf w with Ok x => x | Err _ => NaN end) = CFlt x /\ (forall y, pf w = Ok y -> x = y) /\ (forall e, pf w = Err e -> x = NaN)).
  { eexists. split; [reflexivity|]. split; [intros y ->; reflexivity|intros e ->; reflexivity]. }
  assert (TXT : exists s v, w = s ++ v /\ CStr (firstn 50 w) = CStr s /\ (length s <= 50)%nat /\ (v = [] \/ length s = 50%nat)).
  { exists (firstn 50 w), (skipn 50 w). split; [symmetry; apply firstn_skipn|]. split; [reflexivity|]. split; [apply firstn_le_length|].
    destruct (Nat.le_gt_cases (length w) 50) as [L|L]; [left; apply skipn_all2; exact L|right; rewrite firstn_length; lia]. }
  unfold denotes, type_of, text_column, whole_column. destruct (String.eqb_spec name "num_sectors") as [->|NS].
  { cbn [read_cell]. split; [intros [_ [X|X]]; discriminate X|]. split; [intros _; exact INT|]. intros _ H. exfalso. apply H. left. reflexivity. }
  destruct flag.
  - pose proof (proj1 F1 TF) as Y. split; [intros [NY _]; contradiction|]. destruct (String.eqb_spec name "year") as [->|NYR]; cbn [read_cell].
    + split; [intros _; exact INT|]. intros _ H. exfalso. apply H. right. auto.
    + split; [intros [X|[_ X]]; contradiction|]. intros _ _. exact FLT.
  - pose proof (proj1 F2 TF) as [NY _]. destruct (String.eqb_spec name "date") as [->|ND]; cbn [orb read_cell].
    + split; [intros _; exact TXT|]. split; [intros [X|[X _]]; contradiction|]. intros H. exfalso. apply H. auto.
    + destruct (String.eqb_spec name "time") as [->|NT]; cbn [read_cell].
      * split; [intros _; exact TXT|]. split; [intros [X|[X _]]; contradiction|]. intros H. exfalso. apply H. auto.
      * split; [intros [_ [X|X]]; contradiction|]. split; [intros [X|[X _]]; contradiction|]. intros _ _. exact FLT.
Qed.
Lemma read_row_nth pf ts : forall ws i t w, nth_error ts i = Some t -> nth_error ws i = Some w -> nth_error (read_row pf ts ws) i = Some (read_cell pf t w).
Proof.
  induction ts as [|t0 ts IH]; intros ws i t w T W; [destruct i; discriminate T|]. destruct ws as [|w0 ws]; [destruct i; discriminate W|].
  destruct i as [|i]; cbn in T, W |- *; [injection T as <-; injection W as <-; reflexivity|]. apply IH; assumption.
Qed.
Lemma read_row_length pf ts : forall ws, (length ts <= length ws)%nat -> length (read_row pf ts ws) = length ts.
Proof. induction ts as [|t ts IH]; intros [|w ws] L; cbn in *; [reflexivity|reflexivity|lia|]. rewrite IH by lia. reflexivity. Qed.
Lemma row_read pf cols flag ws : time_flag cols = Some flag -> (length cols <= length ws)%nat -> row_denotes pf cols ws (read_row pf (map (type_of flag) cols) ws).
Proof.
  intros TF L. split; [rewrite read_row_length; rewrite map_length; [reflexivity|exact L]|]. intros i name E.
  assert (I : (i < length ws)%nat). { assert (i < length cols)%nat by (apply nth_error_Some; congruence). lia. }
  destruct (nth_error ws i) as [w|] eqn:W; [|apply nth_error_None in W; lia]. exists w. eexists. split; [reflexivity|]. split.
  - apply read_row_nth; [|exact W]. rewrite nth_error_map, E. reflexivity.
  - apply cell_denotes. exact TF.
Qed.
Lemma distinct_spec l : distinct l = true <-> NoDup l.
Proof.
  induction l as [|a l IH]; cbn; [split; [constructor|reflexivity]|]. rewrite andb_true_iff, IH, negb_true_iff. split.
  - intros [N D]. constructor; [|exact D]. intros I. apply str_in_spec in I. congruence.
  - intros D. inversion D as [|? ? N D']; subst. split; [|exact D']. destruct (str_in a l) eqn:E; [apply str_in_spec in E; contradiction|reflexivity].
Qed.
Lemma time_flag_some cols : year_file cols \/ date_file cols -> exists flag, time_flag cols = Some flag.
Proof. intros H. destruct (time_flag_spec cols) as (F1 & F2 & F3). destruct (time_flag cols) as [f|]; [eauto|]. exfalso. tauto. Qed.
Lemma rows_read words lines : data_lines words lines ->
  filter (fun r : list str => match r with [] => false | _ => true end) (map (fun l => FilesModel.words [] (before (s2l "#") l)) lines) = words.
Proof. exact (data_rows words lines). Qed.
Lemma skip_head {A} (head l : list A) : skipn (length head) (head ++ l) = l.
Proof. rewrite skipn_app, skipn_all, Nat.sub_diag. reflexivity. Qed.
Lemma read_table_spec pf flag cols head lines words n : NoDup cols -> data_lines words lines -> (length cols <= n)%nat -> Forall (fun ws => length ws = n) words ->
  read_table pf flag (length head) cols (head ++ lines) = Ok (map (read_row pf (map (type_of flag) cols)) words).
Proof.
  intros N D L W. unfold read_table. rewrite (proj2 (distinct_spec cols) N). cbn [negb]. rewrite skip_head, (rows_read _ _ D).
  destruct words as [|r0 rs]; [reflexivity|]. cbv zeta iota.
  assert (E : forallb (fun r => (length r =? length r0)%nat) (r0 :: rs) = true).
  { apply forallb_forall. intros r I. rewrite Forall_forall in W. rewrite (W r I), (W r0 (or_introl eq_refl)). apply Nat.eqb_refl. }
  rewrite E. inversion W as [|? ? W0 _]; subst. rewrite (proj2 (Nat.leb_le _ _) L). reflexivity.
Qed.
