(** Proofs about the binary64 time conversions. *)
From Coq Require Import ZArith Reals Bool Lia Lra.
From Flocq Require Import Core Relative BinarySingleNaN.
From Verif Require Import PyBase FloatModel FloatProofs FtimeModel.
Open Scope R_scope.

Local Instance prec53_i : Prec_gt_0 53 := prec53.
Notation isf := (generic_format radix2 fexp64).

(** ** Whole numbers *)
Lemma whole_format z : (Z.abs z <= 2 ^ 53)%Z -> isf (IZR z).
Proof.
  intros H. destruct (Z.eq_dec (Z.abs z) (2 ^ 53)) as [E|N].
  - replace (IZR z) with (F2R (Float radix2 (z / 2) 1)).
    + apply generic_format_FLT. apply (FLT_spec _ _ _ _ (Float radix2 (z / 2) 1)); [reflexivity| |cbn; lia].
      cbn [Fnum]. destruct (Z.abs_spec z) as [[_ A]|[_ A]]; rewrite A in E; [rewrite E|replace z with (- 2 ^ 53)%Z by lia]; reflexivity.
    + unfold F2R. cbn [Fnum Fexp]. change (bpow radix2 1) with (IZR 2). rewrite <- mult_IZR. f_equal.
      destruct (Z.abs_spec z) as [[_ A]|[_ A]]; rewrite A in E; [rewrite E|replace z with (- 2 ^ 53)%Z by lia]; reflexivity.
  - replace (IZR z) with (F2R (Float radix2 z 0)) by (unfold F2R; cbn; lra).
    apply generic_format_FLT. apply (FLT_spec _ _ _ _ (Float radix2 z 0)); [reflexivity| |cbn; lia]. cbn [Fnum]. change (radix2 ^ 53)%Z with (2 ^ 53)%Z. lia.
Qed.
Lemma rnd_whole z : (Z.abs z <= 2 ^ 53)%Z -> rnd (IZR z) = IZR z.
Proof. intros H. apply round_generic; auto with typeclass_instances. now apply whole_format. Qed.

Lemma whole_R z : (Z.abs z <= 2 ^ 53)%Z -> toR (whole z) = IZR z /\ fin (whole z) = true /\ Bsign (whole z) = (z <? 0)%Z.
Proof.
  intros H. pose proof (binary_normalize_correct 53 1024 prec53 emax1024 mode_NE z 0 false) as C. cbv zeta in C.
  assert (E : F2R (Float radix2 z 0) = IZR z) by (unfold F2R; cbn; lra). rewrite E in C.
  change (round radix2 (SpecFloat.fexp 53 1024) (round_mode mode_NE) (IZR z)) with (rnd (IZR z)) in C. rewrite (rnd_whole z H) in C.
  rewrite Rlt_bool_true in C.
  - destruct C as (C1 & C2 & C3). split; [exact C1|]. split; [exact C2|]. unfold whole. rewrite C3. destruct (Rcompare_spec (IZR z) 0) as [L|L|L].
    + apply lt_IZR in L. symmetry. now apply Z.ltb_lt.
    + apply eq_IZR in L. now subst.
    + apply lt_IZR in L. symmetry. apply Z.ltb_ge. lia.
  - rewrite <- abs_IZR. apply Rle_lt_trans with (IZR (2 ^ 53)); [now apply IZR_le|]. change (IZR (2 ^ 53)) with (bpow radix2 53). apply bpow_lt. lia.
Qed.

(** ** Rounding errors *)
Definition u := bpow radix2 (-53).
Definition tiny := bpow radix2 (-1075).
Lemma u_pos : 0 < u. Proof. apply bpow_gt_0. Qed.
Lemma tiny_pos : 0 < tiny. Proof. apply bpow_gt_0. Qed.
Lemma tiny_u : tiny <= u * u.
Proof. unfold tiny, u. rewrite <- bpow_plus. apply bpow_le. lia. Qed.

Lemma rnd_bound x : Rabs (rnd x - x) <= u * Rabs x + tiny.
Proof.
  destruct (error_N_FLT radix2 (3 - 1024 - 53) 53 ltac:(lia) (fun x => negb (Z.even x)) x) as (eps & eta & E1 & E2 & _ & E).
  change (Znearest (fun x => negb (Z.even x))) with ZnearestE in E. rewrite E.
  replace (x * (1 + eps) + eta - x) with (x * eps + eta) by ring. eapply Rle_trans; [apply Rabs_triang|]. rewrite Rabs_mult.
  replace (/ 2 * bpow radix2 (- (53) + 1)) with u in E1 by (unfold u; rewrite (pow_split (-53) (-1) (-52)) by reflexivity; change (bpow radix2 (-1)) with (/ 2); reflexivity).
  replace (/ 2 * bpow radix2 (3 - 1024 - 53)) with tiny in E2 by (unfold tiny; rewrite (pow_split (-1075) (-1) (-1074)) by reflexivity; change (bpow radix2 (-1)) with (/ 2); reflexivity).
  pose proof (Rabs_pos x). apply Rplus_le_compat; [|exact E2]. rewrite Rmult_comm. apply Rmult_le_compat_r; assumption.
Qed.
Lemma rnd_small x b : Rabs x <= b -> b <= bpow radix2 1000 -> Rabs (rnd x) < bpow radix2 1024.
Proof.
  intros H B. apply Rle_lt_trans with (bpow radix2 1000); [|apply bpow_lt; lia].
  apply abs_round_le_generic; auto with typeclass_instances; [|lra]. apply generic_format_bpow. unfold FLT_exp. lia.
Qed.

(** ** The operations *)
Section Ops.
  Variables (x y : f64).
  Hypothesis (Fx : fin x = true) (Fy : fin y = true).
  Lemma add_R : Rabs (toR x + toR y) <= bpow radix2 1000 -> toR (f64_add x y) = rnd (toR x + toR y) /\ fin (f64_add x y) = true.
  Proof.
    intros H. pose proof (@Bplus_correct 53 1024 prec53 emax1024 mode_NE x y Fx Fy) as C.
    change (round radix2 (SpecFloat.fexp 53 1024) (round_mode mode_NE) (toR x + toR y)) with (rnd (toR x + toR y)) in C.
    rewrite Rlt_bool_true in C by (apply (rnd_small _ _ H); lra). destruct C as (A & B & _). now split.
  Qed.
  Lemma sub_R : Rabs (toR x - toR y) <= bpow radix2 1000 -> toR (f64_sub x y) = rnd (toR x - toR y) /\ fin (f64_sub x y) = true.
  Proof.
    intros H. pose proof (@Bminus_correct 53 1024 prec53 emax1024 mode_NE x y Fx Fy) as C.
    change (round radix2 (SpecFloat.fexp 53 1024) (round_mode mode_NE) (toR x - toR y)) with (rnd (toR x - toR y)) in C.
    rewrite Rlt_bool_true in C by (apply (rnd_small _ _ H); lra). destruct C as (A & B & _). now split.
  Qed.
  Lemma mul_R : Rabs (toR x * toR y) <= bpow radix2 1000 -> toR (f64_mul x y) = rnd (toR x * toR y) /\ fin (f64_mul x y) = true.
  Proof.
    intros H. pose proof (@Bmult_correct 53 1024 prec53 emax1024 mode_NE x y) as C.
    change (round radix2 (SpecFloat.fexp 53 1024) (round_mode mode_NE) (toR x * toR y)) with (rnd (toR x * toR y)) in C.
    rewrite Rlt_bool_true in C by (apply (rnd_small _ _ H); lra). destruct C as (A & B & _). rewrite Fx, Fy in B. now split.
  Qed.
  Lemma div_R : toR y <> 0 -> Rabs (toR x / toR y) <= bpow radix2 1000 -> toR (f64_div x y) = rnd (toR x / toR y) /\ fin (f64_div x y) = true.
  Proof.
    intros N H. pose proof (@Bdiv_correct 53 1024 prec53 emax1024 mode_NE x y N) as C.
    change (round radix2 (SpecFloat.fexp 53 1024) (round_mode mode_NE) (toR x / toR y)) with (rnd (toR x / toR y)) in C.
    rewrite Rlt_bool_true in C by (apply (rnd_small _ _ H); lra). destruct C as (A & B & _). rewrite Fx in B. now split.
  Qed.
End Ops.

(** ** Whole numbers are subtracted exactly *)
Lemma exact_minus x m : isf x -> Rabs x <= bpow radix2 52 -> Rabs (x - IZR m) <= Rabs x -> isf (x - IZR m).
Proof.
  intros F B H. apply FLT_format_generic in F; [|exact prec53]. destruct F as [[n e] E L G]. cbn [Fnum Fexp] in *.
  apply generic_format_FLT. unfold F2R in E. cbn [Fnum Fexp] in E. destruct (Z_le_gt_dec e 0) as [Le|Gt].
  - apply (FLT_spec _ _ _ _ (Float radix2 (n - m * 2 ^ (- e)) e)); cbn [Fnum Fexp]; [| |exact G].
    + unfold F2R. cbn [Fnum Fexp]. rewrite E, minus_IZR, mult_IZR.
      change (2 ^ (- e))%Z with (radix2 ^ (- e))%Z. rewrite (IZR_Zpower radix2) by lia.
      assert (P : bpow radix2 (- e) * bpow radix2 e = 1) by (rewrite <- bpow_plus; replace (- e + e)%Z with 0%Z by lia; reflexivity).
      replace ((IZR n - IZR m * bpow radix2 (- e)) * bpow radix2 e) with (IZR n * bpow radix2 e - IZR m * (bpow radix2 (- e) * bpow radix2 e)) by ring.
      rewrite P. ring.
    + apply Z.le_lt_trans with (Z.abs n); [|exact L]. apply le_IZR. rewrite !abs_IZR.
      apply (Rmult_le_reg_r (bpow radix2 e)); [apply bpow_gt_0|].
      rewrite <- (Rabs_pos_eq (bpow radix2 e)) at 1 2 by apply bpow_ge_0. rewrite <- !Rabs_mult, minus_IZR, mult_IZR.
      change (2 ^ (- e))%Z with (radix2 ^ (- e))%Z. rewrite (IZR_Zpower radix2) by lia.
      replace ((IZR n - IZR m * bpow radix2 (- e)) * bpow radix2 e) with (IZR n * bpow radix2 e - IZR m * (bpow radix2 (- e) * bpow radix2 e)) by ring.
      rewrite <- bpow_plus. replace (- e + e)%Z with 0%Z by lia. change (bpow radix2 0) with 1. rewrite Rmult_1_r, <- E. exact H.
  - assert (EI : x = IZR (n * 2 ^ e)).
    { rewrite E, mult_IZR. change (2 ^ e)%Z with (radix2 ^ e)%Z. rewrite (IZR_Zpower radix2) by lia. reflexivity. }
    apply (FLT_spec _ _ _ _ (Float radix2 (n * 2 ^ e - m) 0)); cbn [Fnum Fexp]; [| |lia].
    + unfold F2R. cbn [Fnum Fexp]. rewrite minus_IZR, <- EI. change (bpow radix2 0) with 1. ring.
    + apply lt_IZR. rewrite abs_IZR, minus_IZR, <- EI. eapply Rle_lt_trans; [exact H|]. eapply Rle_lt_trans; [exact B|].
      change (IZR (radix2 ^ 53)) with (bpow radix2 53). apply bpow_lt. lia.
Qed.

(** ** The loops, with whole limits *)
Section Wrap.
  Variables (mn mx r : Z).
  Hypothesis (Hlim : (mn <= 0 < mx)%Z) (Hr : (0 < r <= mx - mn)%Z) (Hhalf : (r <= 2 * mx)%Z).
  Hypothesis (Bmn : (- mn <= 2 ^ 50)%Z) (Bmx : (mx <= 2 ^ 50)%Z).

  Lemma Rr : toR (whole r) = IZR r /\ fin (whole r) = true. Proof. destruct (whole_R r ltac:(lia)) as (A & B & _). auto. Qed.
  Lemma Rmn : toR (whole mn) = IZR mn /\ fin (whole mn) = true. Proof. destruct (whole_R mn ltac:(lia)) as (A & B & _). auto. Qed.
  Lemma Rmx : toR (whole mx) = IZR mx /\ fin (whole mx) = true. Proof. destruct (whole_R mx ltac:(lia)) as (A & B & _). auto. Qed.

  Lemma B1000 z : Rabs z <= bpow radix2 60 -> Rabs z <= bpow radix2 1000.
  Proof. intros H. eapply Rle_trans; [exact H|]. apply bpow_le. lia. Qed.
  Lemma r_small : 0 < IZR r <= bpow radix2 52.
  Proof. split; [apply IZR_lt; lia|]. apply Rle_trans with (IZR (2 ^ 52)); [apply IZR_le; lia|apply Rle_refl]. Qed.

  Lemma sub_exact v : fin v = true -> Rabs (toR v) <= bpow radix2 52 -> IZR mx <= toR v ->
    toR (f64_sub v (whole r)) = toR v - IZR r /\ fin (f64_sub v (whole r)) = true /\ Rabs (toR v - IZR r) <= Rabs (toR v).
  Proof.
    intros F B L. destruct Rr as [E FR]. pose proof r_small.
    assert (HR : IZR r <= 2 * IZR mx) by (rewrite <- mult_IZR; now apply IZR_le).
    assert (V0 : 0 < toR v) by (apply Rlt_le_trans with (IZR mx); [apply IZR_lt; lia|exact L]).
    assert (A : Rabs (toR v - IZR r) <= Rabs (toR v)) by (rewrite (Rabs_pos_eq (toR v)) by lra; apply Rabs_le; lra).
    destruct (sub_R v (whole r) F FR) as [S1 S2]; [rewrite E; apply B1000; eapply Rle_trans; [exact A|]; eapply Rle_trans; [exact B|]; apply bpow_le; lia|].
    split; [|split; [exact S2|exact A]]. rewrite S1, E. apply round_generic; auto with typeclass_instances.
    apply exact_minus; [apply generic_format_B2R|exact B|exact A].
  Qed.
  Lemma add_exact v : fin v = true -> Rabs (toR v) <= bpow radix2 52 -> 2 * toR v <= - IZR r ->
    toR (f64_add v (whole r)) = toR v + IZR r /\ fin (f64_add v (whole r)) = true /\ Rabs (toR v + IZR r) <= Rabs (toR v).
  Proof.
    intros F B L. destruct Rr as [E FR]. pose proof r_small.
    assert (A : Rabs (toR v + IZR r) <= Rabs (toR v)) by (rewrite (Rabs_left (toR v)) by lra; apply Rabs_le; lra).
    destruct (add_R v (whole r) F FR) as [S1 S2]; [rewrite E; apply B1000; eapply Rle_trans; [exact A|]; eapply Rle_trans; [exact B|]; apply bpow_le; lia|].
    split; [|split; [exact S2|exact A]]. rewrite S1, E. apply round_generic; auto with typeclass_instances.
    replace (toR v + IZR r) with (toR v - IZR (- r)) by (rewrite opp_IZR; ring).
    apply exact_minus; [apply generic_format_B2R|exact B|]. rewrite opp_IZR. replace (toR v - - IZR r) with (toR v + IZR r) by ring. exact A.
  Qed.

  (** Subtraction loop. *)
  Lemma sub_loop_exact n : forall v y, fin v = true -> Rabs (toR v) <= bpow radix2 52 -> sub_loop_f n (whole mx) (whole r) v = Ok y ->
    fin y = true /\ toR y < IZR mx /\ Rabs (toR y) <= bpow radix2 52 /\ exists k, toR y = toR v - IZR k * IZR r /\ (toR v < IZR mx -> k = 0%Z) /\ (IZR mx <= toR v -> IZR mn <= toR y).
  Proof.
    induction n as [|n IH]; intros v y F B H.
    - cbn in H. destruct (f64_le (whole mx) v) eqn:E; [discriminate|]. injection H as <-. split; [exact F|].
      assert (toR v < IZR mx).
      { destruct (Rlt_le_dec (toR v) (IZR mx)) as [Q|Q]; [exact Q|]. destruct Rmx as [M1 M2]. rewrite <- M1 in Q. apply le_true in Q; try assumption. congruence. }
      split; [assumption|]. split; [exact B|]. exists 0%Z. split; [ring|]. split; [auto|lra].
    - cbn in H. destruct (f64_le (whole mx) v) eqn:E.
      + destruct Rmx as [M1 M2]. apply le_true in E; try assumption. rewrite M1 in E.
        destruct (sub_exact v F B E) as (S1 & S2 & S3). assert (B' : Rabs (toR (f64_sub v (whole r))) <= bpow radix2 52) by (rewrite S1; lra).
        destruct (IH _ _ S2 B' H) as (Y1 & Y2 & Y3 & k & Y4 & Y5 & Y6). split; [exact Y1|]. split; [exact Y2|]. split; [exact Y3|].
        exists (k + 1)%Z. split; [rewrite Y4, S1, plus_IZR; ring|]. split; [lra|]. intros _.
        destruct (Rlt_le_dec (toR (f64_sub v (whole r))) (IZR mx)) as [Q|Q]; [|now apply Y6].
        rewrite Y4, (Y5 Q), S1. assert (IZR r <= IZR mx - IZR mn) by (rewrite <- minus_IZR; now apply IZR_le). lra.
      + injection H as <-. split; [exact F|]. assert (toR v < IZR mx).
        { destruct (Rlt_le_dec (toR v) (IZR mx)) as [Q|Q]; [exact Q|]. destruct Rmx as [M1 M2]. rewrite <- M1 in Q. apply le_true in Q; try assumption. congruence. }
        split; [assumption|]. split; [exact B|]. exists 0%Z. split; [ring|]. split; [auto|lra].
  Qed.

  (** Addition loop: exact except perhaps the last addition. *)
  Lemma add_loop_exact n : forall v y, fin v = true -> Rabs (toR v) <= bpow radix2 52 -> toR v < IZR mx -> add_loop_f n (whole mn) (whole r) v = Ok y ->
    fin y = true /\ IZR mn <= toR y <= IZR mx /\ exists k, Rabs (toR y - (toR v + IZR k * IZR r)) <= u * IZR r /\
      (IZR mn <= toR v -> y = v) /\ (IZR mn <= toR v \/ 2 * IZR mn <= - IZR r -> toR y = toR v + IZR k * IZR r /\ toR y < IZR mx).
  Proof.
    assert (RM : IZR r <= IZR mx - IZR mn) by (rewrite <- minus_IZR; now apply IZR_le).
    assert (M0 : IZR mn <= 0) by (apply IZR_le; lia). pose proof r_small as R0. pose proof u_pos as U0.
    assert (DONE : forall v, fin v = true -> toR v < IZR mx -> f64_lt v (whole mn) = false ->
      fin v = true /\ IZR mn <= toR v <= IZR mx /\ exists k, Rabs (toR v - (toR v + IZR k * IZR r)) <= u * IZR r /\
      (IZR mn <= toR v -> v = v) /\ (IZR mn <= toR v \/ 2 * IZR mn <= - IZR r -> toR v = toR v + IZR k * IZR r /\ toR v < IZR mx)).
    { intros v F L E. assert (IZR mn <= toR v).
      { destruct (Rlt_le_dec (toR v) (IZR mn)) as [Q|Q]; [|exact Q]. destruct Rmn as [M1 M2]. rewrite <- M1 in Q. apply lt_true in Q; try assumption. congruence. }
      split; [exact F|]. split; [lra|]. exists 0%Z. replace (toR v - (toR v + 0 * IZR r)) with 0 by ring. rewrite Rabs_R0. split; [nra|]. split; [auto|]. intros _. split; [ring|exact L]. }
    induction n as [|n IH]; intros v y F B L H.
    - cbn in H. destruct (f64_lt v (whole mn)) eqn:E; [discriminate|]. injection H as <-. now apply DONE.
    - cbn in H. destruct (f64_lt v (whole mn)) eqn:E; [|injection H as <-; now apply DONE].
      destruct Rmn as [M1 M2]. apply lt_true in E; try assumption. rewrite M1 in E.
      destruct (Rle_lt_dec (2 * toR v) (- IZR r)) as [Q|Q].
      + destruct (add_exact v F B Q) as (S1 & S2 & S3). assert (B' : Rabs (toR (f64_add v (whole r))) <= bpow radix2 52) by (rewrite S1; lra).
        destruct (IH _ _ S2 B' ltac:(rewrite S1; lra) H) as (Y1 & Y2 & k & Y4 & Y5 & Y6). split; [exact Y1|]. split; [exact Y2|].
        exists (k + 1)%Z. rewrite S1 in *. split; [rewrite plus_IZR; replace (toR v + (IZR k + 1) * IZR r) with (toR v + IZR r + IZR k * IZR r) by ring; exact Y4|].
        split; [lra|]. intros HH. destruct HH as [HH|HH]; [lra|]. destruct (Y6 (or_intror HH)) as [Z1 Z2]. split; [rewrite plus_IZR; lra|exact Z2].
      + (* the last addition: -r/2 < v < mn <= 0 *)
        destruct Rr as [RE RF]. assert (AB : Rabs (toR v + IZR r) <= IZR r) by (apply Rabs_le; lra).
        destruct (add_R v (whole r) F RF) as [S1 S2]; [rewrite RE; apply B1000; eapply Rle_trans; [exact AB|]; apply Rle_trans with (bpow radix2 52); [lra|apply bpow_le; lia]|].
        rewrite RE in S1.
        assert (LO : IZR mn <= toR (f64_add v (whole r))).
        { rewrite S1. destruct Rmn as [N1 _]. rewrite <- N1, <- (rnd_id (whole mn)). apply rnd_mono. rewrite N1. lra. }
        assert (HI : toR (f64_add v (whole r)) <= IZR mx).
        { rewrite S1. destruct Rmx as [N1 _]. rewrite <- N1, <- (rnd_id (whole mx)). apply rnd_mono. rewrite N1. lra. }
        assert (E2 : f64_lt (f64_add v (whole r)) (whole mn) = false).
        { destruct (f64_lt _ _) eqn:X; [|reflexivity]. apply lt_true in X; try assumption. lra. }
        assert (y = f64_add v (whole r)) as -> by (destruct n; cbn in H; rewrite E2 in H; now injection H).
        split; [exact S2|]. split; [lra|]. exists 1%Z. split; [|split; [lra|intros [HH|HH]; lra]].
        rewrite S1, Rmult_1_l.
        assert (NB : bpow radix2 (-1022) <= Rabs (toR v + IZR r)).
        { rewrite Rabs_pos_eq by lra. assert (1 <= IZR r) by (apply IZR_le; lia). apply Rle_trans with (/ 2); [|lra].
          change (/ 2) with (bpow radix2 (-1)). apply bpow_le. lia. }
        pose proof (relative_error_N_FLT radix2 (3 - 1024 - 53) 53 prec53 (fun x => negb (Z.even x)) _ NB) as RE2.
        eapply Rle_trans; [exact RE2|]. replace (/ 2 * bpow radix2 (- (53) + 1)) with u
          by (unfold u; rewrite (pow_split (-53) (-1) (-52)) by reflexivity; change (bpow radix2 (-1)) with (/ 2); reflexivity).
        apply Rmult_le_compat_l; lra.
  Qed.

  (** [fix_range] with these limits. *)
  Lemma wrap_exact rng v : rng = Some (whole r) \/ (rng = None /\ r = mx - mn)%Z -> fin v = true -> Rabs (toR v) <= bpow radix2 50 ->
    exists w N, (forall n, (N <= n)%nat -> fix_range_f n v (whole mn) (whole mx) rng = Ok w) /\
      fin w = true /\ IZR mn <= toR w <= IZR mx /\ (IZR mn <= toR v < IZR mx -> w = v) /\
      exists k, Rabs (toR w - (toR v + IZR k * IZR r)) <= u * IZR r /\
        (IZR mn <= toR v \/ 2 * IZR mn <= - IZR r -> toR w = toR v + IZR k * IZR r /\ toR w < IZR mx).
  Proof.
    intros HR F B. destruct Rr as [RE RF]. destruct Rmn as [NE NF]. destruct Rmx as [XE XF]. pose proof r_small as R0.
    assert (RM : IZR r <= IZR mx - IZR mn) by (rewrite <- minus_IZR; now apply IZR_le).
    assert (R1 : 1 <= IZR r) by (apply IZR_le; lia).
    assert (RNG : match rng with Some q => q = whole r | None => f64_sub (whole mx) (whole mn) = whole r end).
    { destruct HR as [->|[-> E]]; [reflexivity|].
      pose proof (@Bminus_correct 53 1024 prec53 emax1024 mode_NE (whole mx) (whole mn) XF NF) as C.
      change (round radix2 (SpecFloat.fexp 53 1024) (round_mode mode_NE) (toR (whole mx) - toR (whole mn))) with (rnd (toR (whole mx) - toR (whole mn))) in C.
      rewrite XE, NE, <- minus_IZR, <- E in C. rewrite (rnd_whole r) in C by lia.
      rewrite Rlt_bool_true in C by (rewrite Rabs_pos_eq by lra; apply Rle_lt_trans with (bpow radix2 52); [lra|apply bpow_lt; lia]).
      destruct C as (C1 & C2 & C3). apply B2R_Bsign_inj; [exact C2|exact RF|rewrite RE; exact C1|].
      destruct (whole_R r ltac:(lia)) as (_ & _ & SG). rewrite SG. unfold f64_sub. rewrite C3.
      destruct (Rcompare_spec (IZR r) 0) as [Q|Q|Q]; try lra. symmetry. apply Z.ltb_ge. lia. }
    assert (BP : forall z, Rabs z <= bpow radix2 50 -> Rabs z <= bpow radix2 50 * toR (whole r)).
    { intros z Hz. rewrite RE. eapply Rle_trans; [exact Hz|]. pose proof (bpow_gt_0 radix2 50). nra. }
    destruct (fix_range_f_spec (whole mn) (whole mx) (whole r) NF XF RF) with (rng := rng) (v := v) as (w & N & W & FW & _); try assumption.
    - rewrite RE. apply Rle_trans with 1; [|exact R1]. change 1 with (bpow radix2 0). apply bpow_le. lia.
    - rewrite RE. apply Rle_trans with (bpow radix2 52); [lra|]. apply bpow_le. lia.
    - rewrite NE, RE, XE. lra.
    - apply BP. rewrite NE, <- abs_IZR. apply Rle_trans with (IZR (2 ^ 50)); [apply IZR_le; lia|apply Rle_refl].
    - apply BP. rewrite XE, <- abs_IZR. apply Rle_trans with (IZR (2 ^ 50)); [apply IZR_le; lia|apply Rle_refl].
    - now apply BP.
    - exists w, N. split; [exact W|]. pose proof (W N (le_n N)) as E. unfold fix_range_f in E.
      destruct (f64_le (whole mx) (whole mn)); [discriminate|].
      replace (match rng with Some r0 => r0 | None => f64_sub (whole mx) (whole mn) end) with (whole r) in E by (destruct rng; congruence).
      destruct (f64_le (whole r) (B754_zero false)); [discriminate|].
      destruct (sub_loop_f N (whole mx) (whole r) v) as [y|] eqn:ES; [|discriminate]. cbn [bind] in E.
      assert (B52 : Rabs (toR v) <= bpow radix2 52) by (eapply Rle_trans; [exact B|apply bpow_le; lia]).
      destruct (sub_loop_exact _ _ _ F B52 ES) as (Y1 & Y2 & Y3 & k & Y4 & Y5 & Y6).
      destruct (add_loop_exact _ _ _ Y1 Y3 Y2 E) as (W1 & W2 & j & W3 & W4 & W5).
      split; [exact W1|]. split; [exact W2|]. split.
      { intros [V1 V2]. specialize (Y5 V2). assert (y = v).
        { destruct N; cbn in ES; destruct (f64_le (whole mx) v) eqn:X; try discriminate; try (now injection ES); apply le_true in X; try assumption; lra. }
        subst y. now apply W4. }
      exists (j - k)%Z. replace (toR v + IZR (j - k) * IZR r) with (toR y + IZR j * IZR r) by (rewrite Y4, minus_IZR; ring).
      split; [exact W3|]. intros HH. apply W5. destruct HH as [HH|HH]; [|now right]. left.
      destruct (Rlt_le_dec (toR v) (IZR mx)) as [Q|Q]; [rewrite Y4, (Y5 Q); lra|now apply Y6].
  Qed.
End Wrap.
