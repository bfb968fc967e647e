(** Proofs about binary64 [fix_range]. *)
From Coq Require Import ZArith Reals Bool Lia Lra.
From Flocq Require Import Core Relative BinarySingleNaN.
From Verif Require Import PyBase FloatModel.
Open Scope R_scope.

Notation fexp64 := (FLT_exp (3 - 1024 - 53) 53).
Notation rnd := (round radix2 fexp64 ZnearestE).
Notation toR := (@B2R 53 1024).
Notation fin := (@is_finite 53 1024).

Local Instance prec53_inst : Prec_gt_0 53 := prec53.

Lemma rnd_mono x y : x <= y -> rnd x <= rnd y.
Proof. apply round_le; auto with typeclass_instances. Qed.
Lemma rnd_id (f : f64) : rnd (toR f) = toR f.
Proof.
  apply round_generic; auto with typeclass_instances. apply generic_format_B2R.
Qed.

Lemma pow_split a b c : (a = b + c)%Z -> bpow radix2 a = bpow radix2 b * bpow radix2 c.
Proof. intros ->. apply bpow_plus. Qed.

Lemma rnd_err x r :
  bpow radix2 (-900) <= r -> Rabs x <= bpow radix2 51 * r -> Rabs (rnd x - x) <= r / 4.
Proof.
  intros Hr Hx. pose proof (bpow_gt_0 radix2 (-900)) as P900.
  destruct (Rle_lt_dec (bpow radix2 (-1022)) (Rabs x)) as [L|L].
  - pose proof (relative_error_N_FLT radix2 (3 - 1024 - 53) 53 prec53 (fun x => negb (Z.even x)) x L) as E.
    eapply Rle_trans; [exact E|].
    change (bpow radix2 (- (53) + 1)) with (bpow radix2 (-52)).
    assert (bpow radix2 (-52) * Rabs x <= r / 2).
    { apply Rle_trans with (bpow radix2 (-52) * (bpow radix2 51 * r)).
      - apply Rmult_le_compat_l; [apply bpow_ge_0|exact Hx].
      - rewrite <- Rmult_assoc, <- bpow_plus. change (bpow radix2 (-52 + 51)) with (/ 2). lra. }
    rewrite Rmult_assoc. lra.
  - assert (G : generic_format radix2 fexp64 (bpow radix2 (-1022))).
    { apply generic_format_bpow. unfold FLT_exp. lia. }
    assert (Rabs (rnd x) <= bpow radix2 (-1022)).
    { apply abs_round_le_generic; auto with typeclass_instances. lra. }
    assert (bpow radix2 (-1022) <= r / 8).
    { apply Rle_trans with (bpow radix2 (-903)); [apply bpow_le; lia|].
      rewrite (pow_split (-903) (-900) (-3)) by reflexivity.
      change (bpow radix2 (-3)) with (/ 8). lra. }
    assert (Rabs (rnd x - x) <= Rabs (rnd x) + Rabs x).
    { unfold Rminus. eapply Rle_trans; [apply Rabs_triang|]. rewrite Rabs_Ropp. apply Rle_refl. }
    lra.
Qed.

Lemma small_lt_max x r :
  bpow radix2 (-900) <= r -> r <= bpow radix2 900 ->
  Rabs x <= bpow radix2 51 * r -> Rabs (rnd x) < bpow radix2 1024.
Proof.
  intros Hr1 Hr2 Hx. pose proof (rnd_err x r Hr1 Hx) as E.
  pose proof (bpow_gt_0 radix2 (-900)) as P900.
  pose proof (bpow_gt_0 radix2 900) as P.
  assert (Rabs (rnd x) <= Rabs (rnd x - x) + Rabs x).
  { replace (rnd x) with ((rnd x - x) + x) at 1 by ring. apply Rabs_triang. }
  assert (B51 : 1 <= bpow radix2 51) by (apply (bpow_le radix2 0 51); lia).
  assert (Rabs (rnd x) <= bpow radix2 52 * bpow radix2 900).
  { apply Rle_trans with (bpow radix2 52 * r).
    - rewrite (pow_split 52 51 1) by reflexivity. change (bpow radix2 1) with 2. nra.
    - apply Rmult_le_compat_l; [apply bpow_ge_0|exact Hr2]. }
  eapply Rle_lt_trans; [eassumption|]. rewrite <- bpow_plus. apply bpow_lt. lia.
Qed.

Section Loops.
  Variables (mn mx r : f64).
  Hypothesis Fmn : fin mn = true.
  Hypothesis Fmx : fin mx = true.
  Hypothesis Fr : fin r = true.
  Hypothesis Hr1 : bpow radix2 (-900) <= toR r.
  Hypothesis Hr2 : toR r <= bpow radix2 900.
  Hypothesis Hw : toR mn + toR r <= toR mx.
  Let B := bpow radix2 50 * toR r.
  Hypothesis Bmn : Rabs (toR mn) <= B.
  Hypothesis Bmx : Rabs (toR mx) <= B.

  Lemma B51 x : Rabs x <= B + toR r -> Rabs x <= bpow radix2 51 * toR r.
  Proof.
    intros H. eapply Rle_trans; [exact H|]. unfold B.
    rewrite (pow_split 51 50 1) by reflexivity. change (bpow radix2 1) with 2.
    assert (1 <= bpow radix2 50) by (apply (bpow_le radix2 0 50); lia).
    pose proof (bpow_gt_0 radix2 (-900)). nra.
  Qed.

  Lemma r_pos : 0 < toR r.
  Proof. pose proof (bpow_gt_0 radix2 (-900)). lra. Qed.

  Lemma sub_step v :
    fin v = true -> toR mx <= toR v -> Rabs (toR v) <= B ->
    fin (f64_sub v r) = true /\ toR mn <= toR (f64_sub v r) <= toR v - 3 / 4 * toR r /\
    Rabs (toR (f64_sub v r)) <= B.
  Proof.
    intros Fv Hv Bv. pose proof r_pos as Hp.
    assert (X : Rabs (toR v - toR r) <= B + toR r).
    { unfold Rminus. eapply Rle_trans; [apply Rabs_triang|]. rewrite Rabs_Ropp.
      rewrite (Rabs_right (toR r)) by lra. lra. }
    apply B51 in X. pose proof (small_lt_max _ _ Hr1 Hr2 X) as Y.
    pose proof (@Bminus_correct 53 1024 prec53 emax1024 mode_NE v r Fv Fr) as C.
    change (round radix2 (SpecFloat.fexp 53 1024) (round_mode mode_NE) (toR v - toR r))
      with (rnd (toR v - toR r)) in C.
    rewrite Rlt_bool_true in C by exact Y. destruct C as [C1 [C2 _]].
    change (Bminus mode_NE v r) with (f64_sub v r) in *.
    pose proof (rnd_err _ _ Hr1 X) as E. apply Rabs_le_inv in E.
    assert (Lo : toR mn <= toR (f64_sub v r)).
    { rewrite C1, <- (rnd_id mn). apply rnd_mono. lra. }
    assert (Hi : toR (f64_sub v r) <= toR v - 3 / 4 * toR r) by (rewrite C1; lra).
    split; [exact C2|]. split; [lra|].
    apply Rabs_le. apply Rabs_le_inv in Bmn. apply Rabs_le_inv in Bv. lra.
  Qed.

  Lemma add_step v :
    fin v = true -> toR v < toR mn -> Rabs (toR v) <= B ->
    fin (f64_add v r) = true /\ toR v + 3 / 4 * toR r <= toR (f64_add v r) <= toR mx /\
    Rabs (toR (f64_add v r)) <= B.
  Proof.
    intros Fv Hv Bv. pose proof r_pos as Hp.
    assert (X : Rabs (toR v + toR r) <= B + toR r).
    { eapply Rle_trans; [apply Rabs_triang|].
      rewrite (Rabs_right (toR r)) by lra. lra. }
    apply B51 in X. pose proof (small_lt_max _ _ Hr1 Hr2 X) as Y.
    pose proof (@Bplus_correct 53 1024 prec53 emax1024 mode_NE v r Fv Fr) as C.
    change (round radix2 (SpecFloat.fexp 53 1024) (round_mode mode_NE) (toR v + toR r))
      with (rnd (toR v + toR r)) in C.
    rewrite Rlt_bool_true in C by exact Y. destruct C as [C1 [C2 _]].
    change (Bplus mode_NE v r) with (f64_add v r) in *.
    pose proof (rnd_err _ _ Hr1 X) as E. apply Rabs_le_inv in E.
    assert (Hi : toR (f64_add v r) <= toR mx).
    { rewrite C1, <- (rnd_id mx). apply rnd_mono. lra. }
    assert (Lo : toR v + 3 / 4 * toR r <= toR (f64_add v r)) by (rewrite C1; lra).
    split; [exact C2|]. split; [lra|].
    apply Rabs_le. apply Rabs_le_inv in Bmx. apply Rabs_le_inv in Bv. lra.
  Qed.

  Lemma le_true a b : fin a = true -> fin b = true -> f64_le a b = true <-> toR a <= toR b.
  Proof.
    intros Fa Fb. unfold f64_le. rewrite Bleb_correct by assumption.
    destruct (Rle_bool_spec (toR a) (toR b)); split; try reflexivity; try discriminate; lra.
  Qed.
  Lemma lt_true a b : fin a = true -> fin b = true -> f64_lt a b = true <-> toR a < toR b.
  Proof.
    intros Fa Fb. unfold f64_lt. rewrite Bltb_correct by assumption.
    destruct (Rlt_bool_spec (toR a) (toR b)); split; try reflexivity; try discriminate; lra.
  Qed.

  Lemma sub_f k v :
    fin v = true -> Rabs (toR v) <= B -> toR v - toR mx < INR k * (3 / 4 * toR r) ->
    exists w, (forall n, (k <= n)%nat -> sub_loop_f n mx r v = Ok w) /\
      fin w = true /\ toR w < toR mx /\ Rabs (toR w) <= B /\
      (toR v < toR mx -> w = v) /\ (toR mx <= toR v -> toR mn <= toR w).
  Proof.
    revert v. induction k as [|k IH]; intros v Fv Bv Hk.
    - simpl in Hk. exists v. split.
      { intros n _. destruct n; simpl; destruct (f64_le mx v) eqn:E; try reflexivity;
          apply le_true in E; try assumption; lra. }
      split; [exact Fv|]. split; [lra|]. split; [exact Bv|]. split; [auto|lra].
    - destruct (f64_le mx v) eqn:E.
      + pose proof E as E'. apply le_true in E'; try assumption.
        destruct (sub_step v Fv E' Bv) as [S1 [S2 S3]].
        rewrite S_INR in Hk. destruct (IH (f64_sub v r) S1 S3) as [w [A [C [D [F [G H]]]]]]; [lra|].
        exists w. split.
        { intros n Hn. destruct n as [|n]; [lia|]. simpl. rewrite E. apply A. lia. }
        split; [exact C|]. split; [exact D|]. split; [exact F|]. split; [lra|].
        intros _. destruct (Rlt_le_dec (toR (f64_sub v r)) (toR mx)) as [L|L].
        * rewrite G by exact L. lra.
        * now apply H.
      + assert (toR v < toR mx).
        { destruct (Rlt_le_dec (toR v) (toR mx)) as [L|L]; [exact L|].
          apply le_true in L; try assumption. congruence. }
        exists v. split.
        { intros n _. destruct n; simpl; rewrite E; reflexivity. }
        split; [exact Fv|]. split; [lra|]. split; [exact Bv|]. split; [auto|lra].
  Qed.

  Lemma add_f k v :
    fin v = true -> Rabs (toR v) <= B -> toR mn - toR v < INR k * (3 / 4 * toR r) ->
    exists w, (forall n, (k <= n)%nat -> add_loop_f n mn r v = Ok w) /\
      fin w = true /\ toR mn <= toR w /\
      (toR mn <= toR v -> w = v) /\ (toR v < toR mn -> toR w <= toR mx).
  Proof.
    revert v. induction k as [|k IH]; intros v Fv Bv Hk.
    - simpl in Hk. exists v. split.
      { intros n _. destruct n; simpl; destruct (f64_lt v mn) eqn:E; try reflexivity;
          apply lt_true in E; try assumption; lra. }
      split; [exact Fv|]. split; [lra|]. split; [auto|lra].
    - destruct (f64_lt v mn) eqn:E.
      + pose proof E as E'. apply lt_true in E'; try assumption.
        destruct (add_step v Fv E' Bv) as [S1 [S2 S3]].
        rewrite S_INR in Hk. destruct (IH (f64_add v r) S1 S3) as [w [A [C [D [G H]]]]]; [lra|].
        exists w. split.
        { intros n Hn. destruct n as [|n]; [lia|]. simpl. rewrite E. apply A. lia. }
        split; [exact C|]. split; [exact D|]. split; [lra|].
        intros _. destruct (Rlt_le_dec (toR (f64_add v r)) (toR mn)) as [L|L].
        * now apply H.
        * rewrite G by exact L. lra.
      + assert (toR mn <= toR v).
        { destruct (Rlt_le_dec (toR v) (toR mn)) as [L|L]; [|exact L].
          apply lt_true in L; try assumption. congruence. }
        exists v. split.
        { intros n _. destruct n; simpl; rewrite E; reflexivity. }
        split; [exact Fv|]. split; [lra|]. split; [auto|lra].
  Qed.

  Lemma enough d : exists k, d < INR k * (3 / 4 * toR r).
  Proof.
    pose proof r_pos as Hp.
    set (q := d / (3 / 4 * toR r)). destruct (archimed q) as [K _].
    exists (Z.to_nat (up q)).
    assert (Hk : q < INR (Z.to_nat (up q))).
    { rewrite INR_IZR_INZ. apply Rlt_le_trans with (IZR (up q)); [exact K|].
      apply IZR_le. lia. }
    apply (Rmult_lt_compat_r (3 / 4 * toR r)) in Hk; [|lra].
    unfold q in Hk at 1.
    replace (d / (3 / 4 * toR r) * (3 / 4 * toR r)) with d in Hk by (field; lra). exact Hk.
  Qed.

  Lemma fix_range_f_spec rng v :
    (match rng with Some q => q = r | None => f64_sub mx mn = r end) ->
    fin v = true -> Rabs (toR v) <= B ->
    exists w N, (forall n, (N <= n)%nat -> fix_range_f n v mn mx rng = Ok w) /\
      fin w = true /\ toR mn <= toR w <= toR mx /\
      (toR mn <= toR v -> toR w < toR mx) /\
      (toR mn <= toR v < toR mx -> w = v).
  Proof.
    intros Hrng Fv Bv. pose proof r_pos as Hp.
    assert (E1 : f64_le mx mn = false).
    { destruct (f64_le mx mn) eqn:E; [|reflexivity]. apply le_true in E; try assumption. lra. }
    assert (E2 : f64_le r (B754_zero false) = false).
    { destruct (f64_le r (B754_zero false)) eqn:E; [|reflexivity].
      apply le_true in E; [|exact Fr|reflexivity]. simpl in E. lra. }
    destruct (enough (toR v - toR mx)) as [k1 K1].
    destruct (sub_f k1 v Fv Bv K1) as [y [A [C [D [F [G H]]]]]].
    destruct (enough (toR mn - toR y)) as [k2 K2].
    destruct (add_f k2 y C F K2) as [w [A' [C' [D' [G' H']]]]].
    exists w, (Nat.max k1 k2). split.
    { intros n Hn. unfold fix_range_f. rewrite E1.
      replace (match rng with Some r0 => r0 | None => f64_sub mx mn end) with r
        by (destruct rng; congruence).
      rewrite E2, A by lia. cbn [bind]. apply A'. lia. }
    split; [exact C'|].
    assert (U : toR w <= toR mx).
    { destruct (Rlt_le_dec (toR y) (toR mn)) as [L|L].
      - now apply H'.
      - rewrite G' by exact L. lra. }
    split; [lra|]. split.
    - intros L. assert (toR mn <= toR y).
      { destruct (Rlt_le_dec (toR v) (toR mx)) as [M|M]; [rewrite G by exact M; exact L|].
        now apply H. }
      rewrite G' by assumption. exact D.
    - intros [L M]. rewrite G in * by exact M. now apply G'.
  Qed.
End Loops.
