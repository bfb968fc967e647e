(** C17: fix_range on IEEE binary64 numbers. *)
From Coq Require Import ZArith Reals Bool Lia Lra.
From Flocq Require Import Core BinarySingleNaN.
From Verif Require Import PyBase FloatModel FloatProofs.
Open Scope R_scope.

(** ** What rounding leaves true *)

(** For ordinary magnitudes the loops finish (for every large enough number of
    passes the result is the same float [w]), the result is in the closed
    interval, and below the maximum unless the input was below the minimum. *)
Theorem C17_binary64_partial :
  forall (mn mx r v : f64) rng,
    (match rng with Some q => q = r | None => f64_sub mx mn = r end) ->
    is_finite mn = true -> is_finite mx = true -> is_finite r = true -> is_finite v = true ->
    bpow radix2 (-900) <= B2R r <= bpow radix2 900 ->
    B2R mn + B2R r <= B2R mx ->
    Rabs (B2R mn) <= bpow radix2 50 * B2R r -> Rabs (B2R mx) <= bpow radix2 50 * B2R r ->
    Rabs (B2R v) <= bpow radix2 50 * B2R r ->
    exists w N, (forall n, (N <= n)%nat -> fix_range_f n v mn mx rng = Ok w) /\
      is_finite w = true /\ B2R mn <= B2R w <= B2R mx /\
      (B2R mn <= B2R v -> B2R w < B2R mx) /\
      (B2R mn <= B2R v < B2R mx -> w = v).
Proof.
  intros mn mx r v rng H1 F1 F2 F3 F4 [R1 R2] W B1 B2 B3.
  exact (fix_range_f_spec mn mx r F1 F2 F3 R1 R2 W B1 B2 rng v H1 F4 B3).
Qed.

(** The floats 0, 24, 2^60, -2^-60 and 360. *)
Definition f0 : f64 := B754_zero false.
Definition f24 : f64 := @B754_finite 53 1024 false 6755399441055744 (-48) eq_refl.
Definition f2p60 : f64 := @B754_finite 53 1024 false 4503599627370496 8 eq_refl.
Definition fm2p_60 : f64 := @B754_finite 53 1024 true 4503599627370496 (-112) eq_refl.

Lemma toR_f24 : B2R f24 = 24.
Proof. unfold f24, B2R, F2R, Defs.Fnum, Defs.Fexp. simpl. lra. Qed.

Lemma sub_24_0 : f64_sub f24 f0 = f24.
Proof. apply B2SF_inj. vm_compute. reflexivity. Qed.

(** The instance every local time goes through: fix_range(v, 0, 24). *)
Theorem C17_local_time_partial :
  forall v : f64, is_finite v = true -> Rabs (B2R v) <= bpow radix2 54 ->
    exists w N, (forall n, (N <= n)%nat -> fix_range_f n v f0 f24 None = Ok w) /\
      is_finite w = true /\ 0 <= B2R w <= 24 /\
      (0 <= B2R v -> B2R w < 24) /\ (0 <= B2R v < 24 -> w = v).
Proof.
  intros v Fv Bv.
  assert (P50 : bpow radix2 50 * 16 = bpow radix2 54)
    by (change 16 with (bpow radix2 4); now rewrite <- bpow_plus).
  pose proof (bpow_gt_0 radix2 50) as P.
  destruct (C17_binary64_partial f0 f24 f24 v None sub_24_0 eq_refl eq_refl eq_refl Fv)
    as [w [N H]].
  - rewrite toR_f24. split.
    + apply Rle_trans with (bpow radix2 0); [apply bpow_le; lia|simpl; lra].
    + apply Rle_trans with (bpow radix2 5); [simpl; lra|apply bpow_le; lia].
  - rewrite toR_f24. simpl. lra.
  - rewrite toR_f24. simpl. rewrite Rabs_R0. lra.
  - rewrite toR_f24. rewrite Rabs_right by lra.
    assert (1 <= bpow radix2 50) by (apply (bpow_le radix2 0 50); lia). lra.
  - rewrite toR_f24. lra.
  - rewrite toR_f24 in H. change (B2R f0) with 0 in H. exists w, N. exact H.
Qed.

(** NaN passes through unchanged. *)
Theorem C17_nan :
  forall n, fix_range_f n B754_nan f0 f24 None = Ok B754_nan.
Proof.
  intros n. unfold fix_range_f.
  change (f64_le f24 f0) with false. cbv beta iota zeta. rewrite sub_24_0.
  change (f64_le f24 (B754_zero false)) with false. cbv beta iota.
  destruct n; reflexivity.
Qed.

(** ** What rounding breaks *)
Lemma stuck v : f64_le f24 v = true -> f64_sub v f24 = v ->
  forall n, fix_range_f n v f0 f24 None = Err OutOfFuel.
Proof.
  intros H1 H2 n. unfold fix_range_f.
  change (f64_le f24 f0) with false. cbv beta iota zeta. rewrite sub_24_0.
  change (f64_le f24 (B754_zero false)) with false. cbv beta iota.
  assert (E : sub_loop_f n f24 f24 v = Err OutOfFuel).
  { induction n as [|n IH]; simpl; rewrite H1; [reflexivity|]. now rewrite H2. }
  now rewrite E.
Qed.

Theorem C17_binary64_refuted :
  (* positive infinity is never brought into range: the loop does not end *)
  (forall n, fix_range_f n (B754_infinity false) f0 f24 None = Err OutOfFuel) /\
  (* nor is the finite number 2^60 *)
  (forall n, fix_range_f n f2p60 f0 f24 None = Err OutOfFuel) /\
  (* and a tiny negative number is mapped to the excluded maximum *)
  (forall n, (1 <= n)%nat -> exists w, fix_range_f n fm2p_60 f0 f24 None = Ok w /\ B2R w = 24).
Proof.
  split; [|split].
  - apply stuck; [reflexivity|]. apply B2SF_inj. vm_compute. reflexivity.
  - apply stuck; [reflexivity|]. apply B2SF_inj. vm_compute. reflexivity.
  - intros n Hn. exists f24. split; [|apply toR_f24]. unfold fix_range_f.
    change (f64_le f24 f0) with false. cbv beta iota zeta. rewrite sub_24_0.
    change (f64_le f24 (B754_zero false)) with false. cbv beta iota.
    assert (E : sub_loop_f n f24 f24 fm2p_60 = Ok fm2p_60) by (destruct n; reflexivity).
    rewrite E. cbn [bind]. destruct n as [|n]; [lia|]. cbn [add_loop_f].
    change (f64_lt fm2p_60 f0) with true. cbv iota.
    assert (G : f64_add fm2p_60 f24 = f24) by (apply B2SF_inj; vm_compute; reflexivity).
    rewrite G. destruct n; reflexivity.
Qed.

(** A float meeting the hypotheses of the positive statement: 50 becomes 2. *)
Example C17_case :
  let v := @B754_finite 53 1024 false 7036874417766400 (-47) eq_refl in
  is_finite v = true /\ B2R v = 50 /\
  exists w, fix_range_f 10 v f0 f24 None = Ok w /\ B2SF w = SpecFloat.S754_finite false 4503599627370496 (-51).
Proof.
  split; [reflexivity|]. split.
  - unfold B2R, F2R, Defs.Fnum, Defs.Fexp. simpl. lra.
  - eexists. split; [reflexivity|]. vm_compute. reflexivity.
Qed.

Print Assumptions C17_binary64_partial.
Print Assumptions C17_local_time_partial.
Print Assumptions C17_nan.
Print Assumptions C17_binary64_refuted.
